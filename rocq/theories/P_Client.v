(** C45: the event client. *)
From Coq Require Import Strings.String.
From stdpp Require Import gmap.
From Coq Require Import NArith ZArith Lia.
From Verif Require Import GoBase Samples Reader SpecReader Inetdiag SpecJson SpecArchive EventServer SpecEvents EventFacts P_Events EventClient SpecClient ClientFacts ClientServer SpecShuffle Shuffle.
Local Open Scope list_scope.

(** What MustRun does is determined by the lines of the stream: one call of the
    handler for each line with an Open or a Close event, in order and with the
    values of that line; nothing for other numbers; and the first line that is no
    event (or too long for the scanner) ends the process.  How the stream is cut
    into reads makes no difference. *)
Theorem C45_calls i cs e : solid i ->
  (must_run (Ret i) = Ret (cs, e) <-> serves (in_eager i) (in_err i) (lines (contents i)) cs e).
Proof. exact (client_iff i cs e). Qed.
Print Assumptions C45_calls.

Theorem C45_total i : solid i -> exists cs e, must_run (Ret i) = Ret (cs, e).
Proof. intros S. destruct (client_serves i S) as (cs & e & _ & R). exists cs, e. exact R. Qed.
Print Assumptions C45_total.

Theorem C45_no_connection e : must_run (Fail e) = Ret ([], Fatal e).
Proof. reflexivity. Qed.
Print Assumptions C45_no_connection.

(** A line that json.Marshal writes for an event is read as that event, whatever
    its number; it has no line end in it. *)
Theorem C45_event zone e : proper_event zone e ->
  exists b, marshal_event zone e = Some b /\ unmarshal_event b = Ret e /\ ~ In x0a b /\ ~ In x0d b.
Proof. exact (event_round_trip zone e). Qed.
Print Assumptions C45_event.

(** What is reported with FlowCreated and FlowDeleted reaches the handler
    unchanged. *)
Theorem C45_delivered zone i rs : Forall (fun r => proper_event zone (event_of r) /\ brief zone (event_of r)) rs ->
  solid i -> quiet (in_err i) -> contents i = concat (map (fun r => event_line zone (event_of r)) rs) ->
  must_run (Ret i) = Ret (map told rs, Returned).
Proof. exact (reports_delivered zone i rs). Qed.
Print Assumptions C45_delivered.

(** This covers the events of connections: the socket IDs that GetSockID makes,
    with a UUID of up to 10000 bytes. *)
Theorem C45_created zone t u raw m : parse_idm (Some raw) = Ret m -> writable_time zone t -> utf8 u -> (N.of_nat (length u) <= 10000)%N ->
  proper_event zone (flow_created t u (get_sockid (idiag_id m))) /\ brief zone (flow_created t u (get_sockid (idiag_id m))).
Proof.
  intros P T U L.
  assert (Q : proper_event zone (flow_created t u (get_sockid (idiag_id m)))).
  { split; [cbn; unfold EventName.Open; lia|]. split; [exact T|]. split; [exact U|]. intros id E. injection E as <-. exact (sockid_proper raw m P). }
  split; [exact Q|]. apply brief_event; [exact Q|exact L|]. intros id E. injection E as <-. exact (sockid_texts raw m P).
Qed.
Print Assumptions C45_created.

Theorem C45_deleted zone t u : writable_time zone t -> utf8 u -> (N.of_nat (length u) <= 10000)%N ->
  proper_event zone (flow_deleted t u) /\ brief zone (flow_deleted t u).
Proof.
  intros T U L.
  assert (Q : proper_event zone (flow_deleted t u)).
  { split; [cbn; unfold EventName.Close; lia|]. split; [exact T|]. split; [exact U|]. intros id E. discriminate E. }
  split; [exact Q|]. apply brief_event; [exact Q|exact L|]. intros id E. discriminate E.
Qed.
Print Assumptions C45_deleted.

(** A stream that ends within a line: the events before it are delivered, then
    the process ends; only if nothing but the newline is missing the event counts. *)
Theorem C45_cut zone i es css e p q : Forall (proper_event zone) es -> Forall (brief zone) es -> Forall2 handled es css ->
  proper_event zone e -> brief zone e -> solid i ->
  event_text zone e = p ++ q -> p <> [] -> contents i = concat (map (event_line zone) es) ++ p ->
  (q <> [] -> must_run (Ret i) = Ret (concat css, Fatal ErrJSON)) /\
  (q = [] -> quiet (in_err i) -> exists c, handled e c /\ must_run (Ret i) = Ret (concat css ++ c, Returned)).
Proof.
  intros P B H Pe Be S E N C. destruct (cut_short zone i es css e p q P B H Pe Be S E N C) as [C1 C2]. split; [exact C1|].
  intros Eq Q. exists (dispatch e). split; [apply handled_dispatch|exact (C2 Eq Q)].
Qed.
Print Assumptions C45_cut.

(** ** With the server of C43 and C44 *)
(** A client no write to which has failed: its handler is called for the events
    of a segment of those submitted, without gaps.  The segment begins no later
    than with the first event submitted after the client was added, and what comes
    after it is still with notifyClients or in the channel. *)
Theorem C45_with_server zone s c l1 l2 i : reachable (marshal_event zone) s -> log s = l1 ++ OAdd c :: l2 -> ~ has_failed c (log s) ->
  waiting s c = None -> Forall (fun e => proper_event zone e /\ brief zone e) (submitted (log s)) ->
  solid i -> quiet (in_err i) -> contents i = received c (log s) ->
  exists before es after css, submitted (log s) = before ++ es ++ after /\
    length before <= length (submitted l1) /\ length after = length (in_hand (np s)) + length (buf s) /\
    Forall2 handled es css /\ must_run (Ret i) = Ret (concat css, Returned).
Proof. exact (end_to_end zone s c l1 l2 i). Qed.
Print Assumptions C45_with_server.

(** If a write has failed and nothing arrived after it, the calls are still those
    of a segment, but the process may be ended by a line cut short. *)
Theorem C45_after_failure zone s c l1 l2 i : reachable (marshal_event zone) s -> log s = l1 ++ OAdd c :: l2 -> steady c (log s) ->
  Forall (fun e => proper_event zone e /\ brief zone e) (submitted (log s)) ->
  solid i -> quiet (in_err i) -> contents i = received c (log s) ->
  exists before es after css e, submitted (log s) = before ++ es ++ after /\ length before <= length (submitted l1) /\
    Forall2 handled es css /\ must_run (Ret i) = Ret (concat css, e) /\ (e = Returned \/ e = Fatal ErrJSON).
Proof. exact (end_to_end_failed zone s c l1 l2 i). Qed.
Print Assumptions C45_after_failure.

(** ** Concrete streams *)
Definition utc (_ : Z) : Z := 0%Z.
Definition id4 : sockid := mksockid 443 54321 (str "192.0.2.1") (str "2001:db8::2") 3 (-1)%Z.
Definition sent : list report := [Created 1600000000000000000 (str "host_1_00000000000000AB") id4; Deleted 1600000001500000000 (str "host_1_00000000000000AB")].
Definition sent_text : bytes := concat (map (fun r => event_line utc (event_of r)) sent).

Example sent_lines : map (fun r => event_text utc (event_of r)) sent =
  [str "{""Event"":0,""Timestamp"":""2020-09-13T12:26:40Z"",""UUID"":""host_1_00000000000000AB"",""ID"":{""SPort"":443,""DPort"":54321,""SrcIP"":""192.0.2.1"",""DstIP"":""2001:db8::2"",""Interface"":3,""Cookie"":-1}}";
   str "{""Event"":1,""Timestamp"":""2020-09-13T12:26:41.5Z"",""UUID"":""host_1_00000000000000AB"",""ID"":null}"].
Proof. vm_compute. reflexivity. Qed.

(** The connection closed by the context, with the stream cut into two reads. *)
Definition conn : input := mkin [firstn 100 sent_text; skipn 100 sent_text] false ErrNetClosed.
Example delivered_sent : must_run (Ret conn) = Ret (map told sent, Returned).
Proof.
  apply (C45_delivered utc).
  - assert (A : forall l, forallb (fun b => (bval b <? 128)%N) l = true -> utf8 l).
    { intros l H. apply ascii_utf8, List.Forall_forall. intros b K. unfold ascii. rewrite forallb_forall in H. apply N.ltb_lt, H, K. }
    repeat (apply List.Forall_cons); [| |apply List.Forall_nil];
      (split; [split; [cbn; unfold EventName.Open, EventName.Close; lia|]; split; [unfold writable_time, utc; cbn; lia|]; split;
        [apply A; reflexivity|]; intros id E; cbn in E; inversion E; repeat split; try (apply A; reflexivity); cbn; lia|reflexivity]).
  - repeat constructor; vm_compute; discriminate.
  - right. reflexivity.
  - vm_compute. reflexivity.
Qed.

(** A run of the server: client 0 is added, the two events are submitted, the
    first one reaches the client and the second is still in the channel. *)
Definition first : flow_event := event_of (Created 1600000000000000000 (str "host_1_00000000000000AB") id4).
Definition second : flow_event := event_of (Deleted 1600000001500000000 (str "host_1_00000000000000AB")).
Definition run_log : list obs :=
  [OAdd 0; OSubmit first; OSubmit second; OBroadcast (event_line utc first); OWrite 0 (event_line utc first) None].
Definition run_state : state := mkst false [second] false false ({[0]} ∪ ∅) (NSend (event_line utc first) []) STest CWait [] [] 1 false run_log.
Lemma run_reachable : reachable (marshal_event utc) run_state.
Proof.
  assert (M : marshal_event utc first = Some (event_text utc first)) by (vm_compute; reflexivity).
  unfold run_state, run_log, event_line. set (tx := event_text utc first) in *. clearbody tx.
  set (f := first) in *. set (g := second). clearbody f g.
  unfold reachable, init.
  go ltac:(apply s_continue; reflexivity).
  out ltac:(apply o_accept; reflexivity).
  go ltac:(eapply s_add; [reflexivity | exact I]).
  out ltac:(apply (o_submit _ f); [reflexivity | vm_compute; lia]).
  out ltac:(apply (o_submit _ g); [reflexivity | vm_compute; lia]).
  go ltac:(apply n_continue; reflexivity).
  go ltac:(eapply (n_event (marshal_event utc) _ f); [reflexivity | reflexivity | exact M]).
  go ltac:(eapply n_lock; reflexivity).
  go ltac:(apply (n_write (marshal_event utc) _ (tx ++ [x0a]) [] 0 []); [reflexivity | nohangup]).
  apply rtc_refl.
Qed.
Lemma run_no_failure f g tx c line n : OWrite c line (Some n) ∉ [OAdd 0; OSubmit f; OSubmit g; OBroadcast tx; OWrite 0 tx None].
Proof. intros H. repeat (apply elem_of_cons in H as [H|H]; [discriminate H|]). inversion H. Qed.
Example run_hypotheses : log run_state = [] ++ OAdd 0 :: tail run_log /\ ~ has_failed 0 run_log /\ steady 0 run_log /\ waiting run_state 0 = None /\
  submitted run_log = [first; second] /\ received 0 run_log = event_line utc first /\
  must_run (Ret (mkin [received 0 run_log] false ErrEOF)) = Ret ([COpen 1600000000000000000 (str "host_1_00000000000000AB") (Some id4)], Returned).
Proof.
  split; [reflexivity|]. split; [|split; [|split; [reflexivity|split; [reflexivity|split; vm_compute; reflexivity]]]].
  - intros (line & n & H). exact (run_no_failure _ _ _ _ _ _ H).
  - intros l1 line n l2 E. exfalso. apply (run_no_failure first second (event_line utc first) 0 line n).
    change (OWrite 0 line (Some n) ∈ run_log). rewrite E. apply elem_of_app. right. left.
Qed.

(** Other producers: members in any order and case, unknown members, unknown
    event numbers. *)
Example other_lines : must_run (Ret (mkin [str "{""id"":null,""uuid"":""u"",""event"":1,""more"":[1,2]}" ++ [x0d; x0a] ++
    str "{""Event"":7,""UUID"":""v""}" ++ [x0a] ++ str " { ""Event"" : 0 , ""UUID"":""w"" , ""ID"":{""SPort"":1} } " ++ [x0a]] false ErrEOF)) =
  Ret ([CClose zero_time (str "u"); COpen zero_time (str "w") (Some (mksockid 1 0 [] [] 0 0))], Returned).
Proof. vm_compute. reflexivity. Qed.

(** The order in which a producer writes the members of an event and of its
    socket ID makes no difference. *)
Theorem C45_any_order : forall b b' j j', Json.parse b = Some j -> Json.parse b' = Some j' -> shuffled j j' -> unmarshal_event b = unmarshal_event b'.
Proof. exact unmarshal_event_shuffled. Qed.
Print Assumptions C45_any_order.
(** Neither do members with other names, wherever they stand. *)
Theorem C45_unknown_members : forall b b' l1 k v l2,
  Json.parse b = Some (Json.JObj (l1 ++ (k, v) :: l2)) -> Json.parse b' = Some (Json.JObj (l1 ++ l2)) ->
  unknown [str "Event"; str "Timestamp"; str "UUID"; str "ID"] k -> unmarshal_event b = unmarshal_event b'.
Proof. exact unmarshal_event_unknown. Qed.
Print Assumptions C45_unknown_members.

(** Members that are missing leave the zero value: a line without "Event" is an
    open, one without "ID" an open of nothing. *)
Theorem C45_missing_members : forall b l e, Json.parse b = Some (Json.JObj l) -> unmarshal_event b = Ret e ->
  (missing (str "Event") l -> fe_event e = 0%Z) /\ (missing (str "Timestamp") l -> fe_time e = zero_time) /\
  (missing (str "UUID") l -> fe_uuid e = []) /\ (missing (str "ID") l -> fe_id e = None).
Proof. exact event_missing. Qed.
Print Assumptions C45_missing_members.
Example c45_missing : exists l, Json.parse (str "{""uuid"":""u""}") = Some (Json.JObj l) /\ missing (str "Event") l /\
  unmarshal_event (str "{""uuid"":""u""}") = Ret (mkfe 0 zero_time (str "u") None).
Proof. eexists. split; [vm_compute; reflexivity|]. split; [repeat constructor; intros H; vm_compute in H; discriminate H|vm_compute; reflexivity]. Qed.

Definition swapped_a : bytes := str "{""ID"":{""SPort"":1,""DPort"":2},""UUID"":""u"",""Event"":1}".
Definition swapped_b : bytes := str "{""UUID"":""u"",""Event"":1,""ID"":{""DPort"":2,""SPort"":1}}".
Example c45_swapped : match Json.parse swapped_a, Json.parse swapped_b with Some j, Some j' => j <> j' /\ shuffled j j' | _, _ => False end /\
  unmarshal_event swapped_b = Ret (mkfe 1 zero_time (str "u") (Some (mksockid 1 2 [] [] 0 0))).
Proof.
  split; [|vm_compute; reflexivity]. vm_compute. split; [discriminate|].
  eapply shuffled_first.
  - apply shuffled_perm; [|apply perm_swap]. repeat constructor; intros H; vm_compute in H; discriminate H.
  - repeat constructor; intros H; vm_compute in H; discriminate H.
  - apply Permutation_cons_append.
Qed.
Example c45_unknown : unknown [str "Event"; str "Timestamp"; str "UUID"; str "ID"] (str "Sequence").
Proof. repeat constructor; intros H; vm_compute in H; discriminate H. Qed.

(** ** What does not hold *)
(** MustRun "will read until the context is cancelled": if a part of a line has
    been read by then, the process ends instead. *)
Theorem C45_cancel_refuted : ~ (forall i, solid i -> in_err i = ErrNetClosed ->
  (exists rest, contents i ++ rest = sent_text) -> exists cs, must_run (Ret i) = Ret (cs, Returned)).
Proof.
  intros H. destruct (H (mkin [firstn 100 sent_text] false ErrNetClosed)) as (cs & K).
  - repeat constructor. vm_compute. discriminate.
  - reflexivity.
  - exists (skipn 100 sent_text). vm_compute. reflexivity.
  - vm_compute in K. discriminate K.
Qed.
Print Assumptions C45_cancel_refuted.

(** "The UUID and Timestamp fields will always be filled in", and Open events
    come with a socket ID: the client does not check this, since 0 is Open. *)
Theorem C45_filled_refuted : ~ (forall i cs e t u id, solid i -> must_run (Ret i) = Ret (cs, e) -> COpen t u id ∈ cs -> u <> [] /\ id <> None).
Proof.
  intros H. destruct (H (mkin [str "null" ++ [x0a]] false ErrEOF) [COpen zero_time [] None] Returned zero_time [] None) as [K _].
  - repeat constructor. vm_compute. discriminate.
  - vm_compute. reflexivity.
  - left.
  - apply K. reflexivity.
Qed.
Print Assumptions C45_filled_refuted.
