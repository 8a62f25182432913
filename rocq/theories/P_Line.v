(** C75: the lines of the files and of the event socket, byte by byte, for readers
    other than this program. *)
From Coq Require Import Strings.String.
From stdpp Require Import gmap.
From Coq Require Import NArith ZArith Lia.
From Verif Require Import GoBase GoTime Netlink SpecJson SpecGrammar Archive SpecArchive ArchiveFacts Cache Saver SpecSaver Samples P_Saver
  System SpecSystem SystemHidden P_System SpecRecovered RecoveredFacts P_Archive SpecPath SpecLine WrittenFacts LineRead LineFiles.
From Verif Require Json Base64 EventServer EventClient SpecClient P_Client.
Local Open Scope list_scope.

(** The line of a record *)
Theorem C75_record : forall zone r x, marshal zone r = Some x -> record_text zone r x.
Proof. exact record_written. Qed.
Print Assumptions C75_record.
(** The line of an event *)
Theorem C75_event : forall zone e x, EventClient.marshal_event zone e = Some x -> event_line_text zone e x.
Proof. exact event_written. Qed.
Print Assumptions C75_event.

(** Every line is UTF-8 on a single line of text; it needs no care in HTML and in
    JavaScript. *)
Theorem C75_harmless : forall zone r e x, record_text zone r x \/ event_line_text zone e x ->
  harmless_text x /\ utf8 x /\ Forall (fun c => (32 <= bval c)%N) x.
Proof.
  intros zone r e x [H|H].
  - apply record_harmless in H. split; [exact H|apply harmless_line, H].
  - apply event_harmless in H. split; [exact H|apply harmless_line, H].
Qed.
Print Assumptions C75_harmless.

(** base64: the text that RFC 4648 asks for, the only one, and of no other bytes *)
Theorem C75_base64 : forall b, strict64 b (Base64.b64_encode b) /\
  (forall x, strict64 b x -> x = Base64.b64_encode b) /\ (forall b', strict64 b' (Base64.b64_encode b) -> b' = b).
Proof.
  intros b. pose proof (strict_encode (length b) b (le_n _)) as S. split; [exact S|]. split.
  - intros x X. exact (strict64_text b _ _ X S).
  - intros b' X. exact (strict64_bytes _ _ _ X S).
Qed.
Print Assumptions C75_base64.

(** Strings: what is written stands for the string, with U+FFFD for each byte that is
    not text; a string that is text stays as it is. *)
Theorem C75_strings : forall s, string_text s (Json.in_quotes (Json.quote s)) /\
  (forall s', repaired s s' -> Json.unquote (Json.quote s) = s') /\ (utf8 s -> forall s', repaired s s' -> s' = s).
Proof.
  intros s. split; [apply string_written|]. split; [exact (repaired_fun s)|]. intros U s'. exact (repaired_utf8 s s' U).
Qed.
Print Assumptions C75_strings.

(** And the other way round: a line that is so is read as what it stands for, whoever
    wrote it; *)
Theorem C75_read : forall zone r x, record_text zone r x -> record_numbers r -> exists r', unmarshal x = Ret r' /\ record_as r r'.
Proof. exact record_read. Qed.
Print Assumptions C75_read.
Theorem C75_read_event : forall zone e x, event_line_text zone e x -> event_numbers e -> exists e', EventClient.unmarshal_event x = Ret e' /\ event_as e e'.
Proof. exact event_read. Qed.
Print Assumptions C75_read_event.
(** so it stands for one record only, whatever the zones; and without metadata there is
    one line for a record, the one that is written. *)
Theorem C75_one_record : forall zone zone' r r' x, record_text zone r x -> record_text zone' r' x -> record_numbers r -> record_numbers r' ->
  exists q, record_as r q /\ record_as r' q.
Proof.
  intros zone zone' r r' x R R' N N'. destruct (record_read zone r x R N) as (q & E & A). destruct (record_read zone' r' x R' N') as (q' & E' & A').
  rewrite E in E'. injection E' as <-. exists q. split; assumption.
Qed.
Print Assumptions C75_one_record.
Theorem C75_one_line : forall zone r x, ar_meta r = None -> (marshal zone r = Some x <-> record_text zone r x).
Proof. exact record_exact. Qed.
Print Assumptions C75_one_line.

(** The files: at any moment each is the beginning of the lines of its records, and
    in the end it is all of them. *)
Theorem C75_files : forall w cf cap anon zone, (forall x, length (anon x) = length x) -> 1 <= nmarsh cf ->
  forall bs, all_comparable cf bs ->
  Forall (writable_time zone) (zero_time :: block_times bs) -> utf8 (uuid_prefix w) ->
  (Z.of_nat (length (log_of w cf bs)) <= 9223372036854775807)%Z ->
  forall y wr f, 1 <= cap -> Forall (parses cf) bs -> fair_order w ->
  reachable w cf cap anon (json_line zone) (header_line zone) bs y -> y_files y !! wr = Some f ->
  exists md, AHeader wr md ∈ log_of w cf bs /\ exists xs rest,
    Forall2 (record_text zone) (mkar zero_time None [] (Some md) :: omap (hidden anon) (queued (file_actions wr (log_of w cf bs)))) xs /\
    f_data f ++ rest = concat (map (fun x => x ++ [x0a]) xs) /\ (y_wg y = 0 -> rest = []).
Proof. exact file_lines. Qed.
Print Assumptions C75_files.

(** ** Concrete lines *)
(** The text of rec0: half past one in the morning, a place 90 minutes east of
    Greenwich, with a UUID that needs care *)
Definition line75 : bytes := match marshal east rec0 with Some x => x | None => [] end.
Example c75_record : record_text east rec0 line75 /\
  exists raw, line75 = str "{""Timestamp"":""2020-01-01T01:30:00.000000005+01:30"",""RawIDM"":""" ++ raw ++
    str """,""Attributes"":[null,""AP8="",""""],""Metadata"":{""UUID"":""a\u003cb\""c" ++ [xc3; xa9] ++ str """,""Sequence"":3,""StartTime"":""2020-01-01T01:29:59+01:30""}}".
Proof.
  split; [apply record_written; vm_compute; reflexivity|]. exists (Base64.b64_encode (firstn 72 (vis (m_data (conn_msg 7 10 20))))). vm_compute. reflexivity.
Qed.
(** A header that another program wrote: the same, but with the first letter of the UUID
    as a number *)
Definition head75 : archival := mkar 0 None [] (Some (mkmeta (str "ab") 3 0)).
Definition other75 : bytes := str "{""Timestamp"":""1970-01-01T00:00:00Z"",""Metadata"":{""UUID"":""\u0061b"",""Sequence"":3,""StartTime"":""1970-01-01T00:00:00Z""}}".
Example c75_other : record_text utc head75 other75 /\ record_numbers head75 /\ marshal utc head75 <> Some other75 /\ unmarshal other75 = Ret head75.
Proof.
  split; [|split; [|split; [vm_compute; discriminate|vm_compute; reflexivity]]].
  - assert (T : time_text 0 0 (quoted (str "1970-01-01T00:00:00Z"))) by (apply time_written; vm_compute; reflexivity).
    set (m := object [member "UUID" (quoted (str "\u0061b")); member "Sequence" (str "3"); member "StartTime" (quoted (str "1970-01-01T00:00:00Z"))]).
    exists (quoted (str "1970-01-01T00:00:00Z")), [], [], [member "Metadata" m]. split; [exact T|]. split; [left; split; [left; reflexivity|reflexivity]|].
    split; [left; split; reflexivity|]. split; [|vm_compute; reflexivity].
    right. split; [discriminate|]. exists m. split; [|reflexivity]. eexists. split; [reflexivity|].
    exists (quoted (str "\u0061b")), (str "3"), (quoted (str "1970-01-01T00:00:00Z")). split; [|split; [apply (integer_written 3)|split; [exact T|reflexivity]]].
    exists (str "\u0061b"), (str "ab"). split; [reflexivity|].
    assert (C : chars (str "\u0061b")).
    { refine (proj2 (GrammarFacts.scan_str_sound _ (str "\u0061b""") _ [] (le_n _) _)). vm_compute. reflexivity. }
    split; [exact C|]. split; [apply SpellFacts.unquote_spells; [exact C|vm_compute; reflexivity]|]. split.
    + destruct (proj1 (C75_strings (str "ab"))) as (y & s' & _ & _ & _ & R & _). rewrite <- (proj1 (proj2 (C75_strings (str "ab"))) s' R) in R.
      exact R.
    + apply harmless_mild. repeat constructor.
  - intros md [= <-]. split; cbn; lia.
Qed.
Example c75_event_numbers : event_numbers (SpecClient.event_of (SpecClient.Deleted 1600000001500000000 (str "u"))).
Proof. split; [split; vm_compute; discriminate|]. intros o [=]. Qed.
Example c75_event : exists x, EventClient.marshal_event P_Client.utc (SpecClient.event_of (SpecClient.Deleted 1600000001500000000 (str "u"))) = Some x /\
  x = str "{""Event"":1,""Timestamp"":""2020-09-13T12:26:41.5Z"",""UUID"":""u"",""ID"":null}".
Proof. eexists. split; vm_compute; reflexivity. Qed.
(** The padding of base64: the bits left over are zero. *)
Example c75_base64 : map Base64.b64_encode [[]; [xff]; [xff; xff]; [xff; xff; xff]] = [[]; str "/w=="; str "//8="; str "////"] /\
  ~ strict64 [xff] (str "/x==") /\ Base64.b64_decode (str "/x==") = Some [xff].
Proof.
  split; [vm_compute; reflexivity|]. split; [|vm_compute; reflexivity]. intros H. apply (proj1 (proj2 (C75_base64 [xff]))) in H. vm_compute in H. discriminate H.
Qed.
(** A string that is not text: a byte of its own, a surrogate, an overlong slash; and
    the separators of JavaScript *)
Definition odd75 : bytes := [xff; x41; xed; xa0; x80; xc0; xaf; xe2; x80; xa8; x0a].
Example c75_strings : Json.quote odd75 = str "\ufffdA\ufffd\ufffd\ufffd\ufffd\ufffd\u2028\n" /\
  exists s', repaired odd75 s' /\ s' <> odd75.
Proof.
  split; [vm_compute; reflexivity|]. destruct (proj1 (C75_strings odd75)) as (y & s' & _ & _ & _ & R & _). exists s'. split; [exact R|].
  rewrite <- (proj1 (proj2 (C75_strings odd75)) s' R). vm_compute. discriminate.
Qed.
(** A file with a header and two records *)
Example c75_files : match y_files (run1 turns 400) !! 0 with
  | Some f => exists x1 x2 x3, f_data f = x1 ++ [x0a] ++ x2 ++ [x0a] ++ x3 ++ [x0a] /\ Forall harmless_text [x1; x2; x3]
  | None => False
  end.
Proof.
  destruct c39_hypotheses as (H1 & H2 & H3 & H4 & H5 & H6 & H7 & H8 & H9 & _).
  destruct (y_files (run1 turns 400) !! 0) as [f|] eqn:E; [|vm_compute in E; discriminate E].
  destruct (C75_files w0 cf0 1 anon0 utc H1 H2 bs0 H3 H4 H5 H6 (run1 turns 400) 0 f ltac:(lia) H7 H8 (run1_reachable turns 400) E) as (md & _ & xs & rest & F & D & R).
  rewrite (R H9), app_nil_r in D.
  assert (L : length (queued (file_actions 0 (log_of w0 cf0 bs0))) = 2 /\ length (omap (hidden anon0) (queued (file_actions 0 (log_of w0 cf0 bs0)))) = 2) by (vm_compute; split; reflexivity).
  destruct L as [_ L]. destruct (omap (hidden anon0) (queued (file_actions 0 (log_of w0 cf0 bs0)))) as [|r1 [|r2 [|? ?]]]; try discriminate L.
  inversion F as [|? x1 ? l1 R1 F1]; subst. inversion F1 as [|? x2 ? l2 R2 F2]; subst. inversion F2 as [|? x3 ? l3 R3 F3]; subst. inversion F3; subst.
  exists x1, x2, x3. split; [rewrite D; cbn [map concat]; rewrite app_nil_r, <- !app_assoc; reflexivity|].
  repeat constructor; (eapply record_harmless; eassumption).
Qed.
