(** C75, of the event socket: what a client of the whole program has received. *)
From Coq Require Import Strings.String.
From stdpp Require Import gmap relations.
From Coq Require Import NArith ZArith Lia.
From Verif Require Import GoBase GoTime Inetdiag Netlink SpecCompare SpecJson SpecArchive Cache Saver SpecSaver SaverReports Samples P_Saver
  System SpecSystem SystemInv SystemHidden P_System Program SpecProgram ProgramFacts ProgramRuns P_Program SpecLine LineSocket.
From Verif Require Import EventName EventServer SpecEvents EventFacts P_Events EventClient SpecClient.
From Verif Require Collector.
Local Open Scope list_scope.

(** At every moment of every schedule, a client to which no write has failed has
    received the lines of a segment of what the saver reports for the blocks sent so far,
    byte by byte; the last line may be on its way. *)
Theorem C75_socket : forall w cf cap anon line hline v reps zone, (forall x, length (anon x) = length x) -> 1 <= nmarsh cf ->
  forall g c l1 l2, possible w cf cap anon line hline v reps true (marshal_event zone) g ->
  all_comparable cf (g_sent g) -> tellable zone w cf (g_sent g) ->
  log (g_srv g) = l1 ++ OAdd c :: l2 -> ~ has_failed c (log (g_srv g)) ->
  exists before es after rest xs tail,
    reports (uuid_prefix w) (s_log (message_saver_loop w cf (g_sent g))) = before ++ es ++ after ++ rest /\
    length before <= length (submitted l1) /\ length after <= 101 /\ Forall2 (report_text zone) es xs /\
    received c (log (g_srv g)) ++ tail = concat (map (fun x => x ++ [x0a]) xs) /\ (waiting (g_srv g) c = None -> tail = []).
Proof. exact socket_lines. Qed.
Print Assumptions C75_socket.

(** The client of the run of P_Program.v meets the hypotheses (calm_sent, calm_tellable,
    calm_case, calm_no_failure), and has received: *)
Example c75_socket : received 0 (log (g_srv calm)) =
  str "{""Event"":0,""Timestamp"":""2020-01-01T00:00:00Z"",""UUID"":""" ++ from_cookie (uuid_prefix w0) 7 ++
  str """,""ID"":{""SPort"":443,""DPort"":5000,""SrcIP"":""10.0.0.1"",""DstIP"":""192.0.2.7"",""Interface"":0,""Cookie"":7}}" ++ [x0a] ++
  str "{""Event"":0,""Timestamp"":""2020-01-01T00:00:02Z"",""UUID"":""" ++ from_cookie (uuid_prefix w0) 8 ++
  str """,""ID"":{""SPort"":443,""DPort"":5000,""SrcIP"":""10.0.0.1"",""DstIP"":""192.0.2.7"",""Interface"":0,""Cookie"":8}}" ++ [x0a] ++
  str "{""Event"":1,""Timestamp"":""2020-01-01T00:00:05Z"",""UUID"":""" ++ from_cookie (uuid_prefix w0) 7 ++ str """,""ID"":null}" ++ [x0a] ++
  str "{""Event"":1,""Timestamp"":""2020-01-01T00:00:06Z"",""UUID"":""" ++ from_cookie (uuid_prefix w0) 8 ++ str """,""ID"":null}" ++ [x0a].
Proof. vm_compute. reflexivity. Qed.
