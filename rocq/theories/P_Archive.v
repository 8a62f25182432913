(** Properties C38, C39: JSON lines of records, and files read back. *)
From Coq Require Import Strings.String.
From stdpp Require Import gmap.
From Coq Require Import NArith ZArith Lia.
From Verif Require Import GoBase GoTime Netlink SpecJson Archive SpecArchive ArchiveFacts Cache Saver SpecSaver Samples P_Saver
  System SpecSystem SystemHidden P_System SpecRecovered LineFacts RecoveredFacts SmallFiles.
From Verif Require Reader SpecReader ReaderFacts Json.
From Verif Require Import SpecShuffle Shuffle.
Local Open Scope list_scope.

(** ** C38.  [zone] gives the offset in minutes of the location of a time. *)
Theorem C38_round_trip : forall zone r, writable zone r -> (forall md, ar_meta r = Some md -> proper_metadata md) ->
  exists b, marshal zone r = Some b /\ unmarshal b = Ret (read_back r) /\ ~ In x0a b /\ ~ In x0d b.
Proof. exact round_trip. Qed.
Print Assumptions C38_round_trip.

(** json.Marshal fails exactly on the other records. *)
Theorem C38_fails : forall zone r, marshal zone r = None <-> ~ writable zone r.
Proof. exact marshal_fails. Qed.
Print Assumptions C38_fails.

(** Two records with the same line are the same record, up to what C38_round_trip
    allows. *)
Theorem C38_injective : forall zone r1 r2 b, marshal zone r1 = Some b -> marshal zone r2 = Some b ->
  (forall r md, r = r1 \/ r = r2 -> ar_meta r = Some md -> proper_metadata md) -> read_back r1 = read_back r2.
Proof. exact marshal_injective. Qed.
Print Assumptions C38_injective.

(** Reading back changes nothing the second time. *)
Theorem C38_again : forall r, read_back (read_back r) = read_back r.
Proof. exact read_back_again. Qed.
Print Assumptions C38_again.

(** A line that was cut is not a record: json.Unmarshal reports an error. *)
Theorem C38_cut : forall zone r p q, writable zone r -> (forall md, ar_meta r = Some md -> proper_metadata md) ->
  json_line zone r = p ++ q -> q <> [] -> unmarshal p = Fail ErrJSON.
Proof. exact cut_line. Qed.
Print Assumptions C38_cut.

(** Lines of other writers: the order of the members makes no difference, neither
    in the record nor in its Metadata, and members with other names are skipped. *)
Theorem C38_any_order : forall b b' j j', Json.parse b = Some j -> Json.parse b' = Some j' -> shuffled j j' -> unmarshal b = unmarshal b'.
Proof. exact unmarshal_shuffled. Qed.
Print Assumptions C38_any_order.
Theorem C38_unknown_members : forall b b' l1 k v l2,
  Json.parse b = Some (Json.JObj (l1 ++ (k, v) :: l2)) -> Json.parse b' = Some (Json.JObj (l1 ++ l2)) ->
  unknown [str "Timestamp"; str "RawIDM"; str "Attributes"; str "Metadata"] k -> unmarshal b = unmarshal b'.
Proof. exact unmarshal_unknown. Qed.
Print Assumptions C38_unknown_members.
(** Members that are missing leave the zero value. *)
Theorem C38_missing_members : forall b l r, Json.parse b = Some (Json.JObj l) -> unmarshal b = Ret r ->
  (missing (str "Timestamp") l -> ar_time r = zero_time) /\ (missing (str "RawIDM") l -> ar_raw r = None) /\
  (missing (str "Attributes") l -> ar_attrs r = []) /\ (missing (str "Metadata") l -> ar_meta r = None).
Proof. exact record_missing. Qed.
Print Assumptions C38_missing_members.
Example c38_missing : exists l, Json.parse (str "{""RawIDM"":""AQI=""}") = Some (Json.JObj l) /\ missing (str "Timestamp") l /\ missing (str "Metadata") l /\
  unmarshal (str "{""RawIDM"":""AQI=""}") = Ret (mkar zero_time (Some [x01; x02]) [] None).
Proof.
  eexists. split; [vm_compute; reflexivity|]. split; [repeat constructor; intros H; vm_compute in H; discriminate H|].
  split; [repeat constructor; intros H; vm_compute in H; discriminate H|vm_compute; reflexivity].
Qed.
Example c38_swapped : match Json.parse (str "{""Metadata"":{""UUID"":""u"",""Sequence"":3},""RawIDM"":""AQI=""}"),
    Json.parse (str "{""RawIDM"":""AQI="",""Metadata"":{""Sequence"":3,""UUID"":""u""}}") with
  | Some j, Some j' => j <> j' /\ shuffled j j' | _, _ => False end.
Proof.
  vm_compute. split; [discriminate|]. eapply shuffled_first.
  - apply shuffled_perm; [|apply perm_swap]. repeat constructor; intros H; vm_compute in H; discriminate H.
  - repeat constructor; intros H; vm_compute in H; discriminate H.
  - apply perm_swap.
Qed.
Example c38_unknown : unknown [str "Timestamp"; str "RawIDM"; str "Attributes"; str "Metadata"] (str "Version").
Proof. repeat constructor; intros H; vm_compute in H; discriminate H. Qed.

(** 2020-01-01 at noon in a place 90 minutes east of Greenwich. *)
Definition east : Z -> Z := fun _ => 90%Z.
Definition rec0 : archival :=
  mkar (1577836800 * second + 5)%Z (Some (firstn 72 (vis (m_data (conn_msg 7 10 20)))))
    [None; Some (mkslice [x00; xff] [x01]); Some (mkslice [] [])] (Some (mkmeta (str "a<b""c"%string ++ [xc3; xa9]) 3 (1577836799 * second)%Z)).
Example c38_case : writable east rec0 /\ (forall md, ar_meta rec0 = Some md -> proper_metadata md).
Proof.
  split.
  - split; [split; split; vm_compute; discriminate || reflexivity|]. intros md E. injection E as <-. split; split; vm_compute; discriminate || reflexivity.
  - intros md E. injection E as <-. split; [|split; discriminate]. unfold md_uuid. exists [97; 60; 98; 34; 99; 233]%N. split.
    + repeat (constructor; [left; reflexivity|]). constructor.
    + vm_compute. reflexivity.
Qed.
Example c38_text : json_line (fun _ => (-300)%Z) (mkar (1577836800 * second + 50)%Z (Some [x01; x02]) [None; Some (mkslice [xff] [])] (Some (mkmeta (str "a<b"%string) 3 zero_time)))
  = str "{""Timestamp"":""2019-12-31T19:00:00.00000005-05:00"",""RawIDM"":""AQI="",""Attributes"":[null,""/w==""],""Metadata"":{""UUID"":""a\u003cb"",""Sequence"":3,""StartTime"":""0000-12-31T19:00:00-05:00""}}"%string.
Proof. vm_compute. reflexivity. Qed.
Example c38_read : match marshal east rec0 with Some b => unmarshal b = Ret (read_back rec0) | None => False end /\ read_back rec0 <> rec0.
Proof. split; [vm_compute; reflexivity|]. intros E. apply (f_equal (fun r => map (option_map spare) (ar_attrs r))) in E. vm_compute in E. discriminate E. Qed.

(** Without the conditions the claim is false: a UUID that is no text is
    changed, an empty RawIDM becomes nil, and a time after year 9999 cannot be
    written. *)
Theorem C38_any_uuid_refuted : exists zone r, writable zone r /\
  match marshal zone r with Some b => unmarshal b <> Ret (read_back r) | None => False end.
Proof.
  exists (fun _ => 0%Z), (mkar 0 None [] (Some (mkmeta [xff] 0 0))). split; [|vm_compute; discriminate].
  split; [split; split; vm_compute; discriminate || reflexivity|]. intros md E. injection E as <-. split; split; vm_compute; discriminate || reflexivity.
Qed.
Print Assumptions C38_any_uuid_refuted.
Theorem C38_empty_refuted : exists zone r, writable zone r /\ ar_meta r = None /\
  match marshal zone r with Some b => unmarshal b <> Ret r | None => False end.
Proof.
  exists (fun _ => 0%Z), (mkar 0 (Some []) [] None). split; [|split; [reflexivity|vm_compute; discriminate]].
  split; [split; split; vm_compute; discriminate || reflexivity|]. intros md E. discriminate E.
Qed.
Print Assumptions C38_empty_refuted.
Theorem C38_any_time_refuted : exists r, ar_meta r = None /\ marshal (fun _ => 0%Z) r = None.
Proof. exists (mkar (253402300800 * second)%Z None [] None). split; [reflexivity|]. vm_compute. reflexivity. Qed.
Print Assumptions C38_any_time_refuted.

(** ** C39 *)
(** The files of a finished run (Done.Wait() has returned), read through any
    decomposition into reads. *)
Theorem C39_files_read_back : forall w cf cap anon zone, (forall x, length (anon x) = length x) -> 1 <= nmarsh cf ->
  forall bs, all_comparable cf bs ->
  Forall (writable_time zone) (zero_time :: block_times bs) -> utf8 (uuid_prefix w) ->
  (Z.of_nat (length (log_of w cf bs)) <= 9223372036854775807)%Z ->
  forall y wr f i, Forall (parses cf) bs -> fair_order w ->
  reachable w cf cap anon (json_line zone) (header_line zone) bs y -> y_wg y = 0 -> y_files y !! wr = Some f ->
  SpecReader.solid i -> SpecReader.contents i = f_data f -> Forall SpecReader.short (SpecReader.lines (f_data f)) ->
  exists md, AHeader wr md ∈ log_of w cf bs /\
    Reader.load_all_archival_records unmarshal i = Ret (recovered anon md (queued (file_actions wr (log_of w cf bs))), None).
Proof. exact file_read_back. Qed.
Print Assumptions C39_files_read_back.

(** The same through NewArchiveReader and Next. *)
Theorem C39_next : forall w cf cap anon zone, (forall x, length (anon x) = length x) -> 1 <= nmarsh cf ->
  forall bs, all_comparable cf bs ->
  Forall (writable_time zone) (zero_time :: block_times bs) -> utf8 (uuid_prefix w) ->
  (Z.of_nat (length (log_of w cf bs)) <= 9223372036854775807)%Z ->
  forall y wr f i, Forall (parses cf) bs -> fair_order w ->
  reachable w cf cap anon (json_line zone) (header_line zone) bs y -> y_wg y = 0 -> y_files y !! wr = Some f ->
  SpecReader.solid i -> SpecReader.contents i = f_data f -> Forall SpecReader.short (SpecReader.lines (f_data f)) ->
  exists md, AHeader wr md ∈ log_of w cf bs /\
    SpecSnapshot.yields (Reader.archive_next unmarshal) (Reader.new_scanner i)
      (recovered anon md (queued (file_actions wr (log_of w cf bs)))) ErrEOF.
Proof. exact file_next. Qed.
Print Assumptions C39_next.

(** A file whose end is missing, at any moment of any run: the records whose
    lines are there are read, and a cut line is an error. *)
Theorem C39_unfinished : forall w cf cap anon zone, (forall x, length (anon x) = length x) -> 1 <= nmarsh cf ->
  forall bs, all_comparable cf bs ->
  Forall (writable_time zone) (zero_time :: block_times bs) -> utf8 (uuid_prefix w) ->
  (Z.of_nat (length (log_of w cf bs)) <= 9223372036854775807)%Z ->
  forall y wr f d rest i, 1 <= cap -> Forall (parses cf) bs -> fair_order w ->
  reachable w cf cap anon (json_line zone) (header_line zone) bs y -> y_files y !! wr = Some f ->
  f_data f = d ++ rest -> SpecReader.solid i -> SpecReader.contents i = d -> Forall SpecReader.short (SpecReader.lines d) ->
  exists md, AHeader wr md ∈ log_of w cf bs /\ exists got e,
    Reader.load_all_archival_records unmarshal i = Ret (got, e) /\
    read_part (json_line zone) (mkar zero_time None [] (Some md) :: omap (hidden anon) (queued (file_actions wr (log_of w cf bs)))) d got e.
Proof. exact part_read_back. Qed.
Print Assumptions C39_unfinished.

Definition utc : Z -> Z := fun _ => 0%Z.
Definition run1 (pick : nat -> list (option nat)) (n : nat) : sys :=
  schedule w0 cf0 1 anon0 (json_line utc) (header_line utc) pick n (initial cf0 bs0).
Lemma run1_reachable pick n : reachable w0 cf0 1 anon0 (json_line utc) (header_line utc) bs0 (run1 pick n).
Proof. apply schedule_steps. Qed.
Example c39_hypotheses : (forall x, length (anon0 x) = length x) /\ 1 <= nmarsh cf0 /\ all_comparable cf0 bs0 /\
  Forall (writable_time utc) (zero_time :: block_times bs0) /\ utf8 (uuid_prefix w0) /\
  (Z.of_nat (length (log_of w0 cf0 bs0)) <= 9223372036854775807)%Z /\ Forall (parses cf0) bs0 /\ fair_order w0 /\
  y_wg (run1 turns 400) = 0 /\
  match y_files (run1 turns 400) !! 0 with
  | Some f => Forall SpecReader.short (SpecReader.lines (f_data f)) /\ length (SpecReader.lines (f_data f)) = 3
  | None => False
  end.
Proof.
  split; [exact anon0_len|]. split; [vm_compute; lia|]. split; [exact (proj2 bs0_ok)|].
  split. { repeat (constructor; [split; split; vm_compute; discriminate || reflexivity|]). constructor. }
  split. { apply utf8_ascii. apply (Forall_impl (fun b => (bval b <? 128)%N = true)); [|intros b H; by apply N.ltb_lt]. apply Forall_forall. intros b H.
    apply elem_of_list_In in H. assert (A : forallb (fun b => (bval b <? 128)%N) (uuid_prefix w0) = true) by (vm_compute; reflexivity).
    rewrite List.forallb_forall in A. exact (A b H). }
  split. { vm_compute. discriminate. }
  split; [exact (proj1 bs0_ok)|]. split; [apply w0_fair|]. split; [vm_compute; reflexivity|].
  destruct (y_files (run1 turns 400) !! 0) as [f|] eqn:E; [|vm_compute in E; discriminate E].
  assert (A : match y_files (run1 turns 400) !! 0 with
    | Some f => forallb (fun l => (N.of_nat (length (fst l)) <? 65536)%N) (SpecReader.lines (f_data f)) && Nat.eqb (length (SpecReader.lines (f_data f))) 3
    | None => false end = true) by (vm_compute; reflexivity).
  rewrite E in A. apply andb_prop in A as [A1 A2]. split; [|by apply Nat.eqb_eq].
  rewrite List.forallb_forall in A1. apply Forall_forall. intros l H. apply elem_of_list_In in H. by apply N.ltb_lt, (A1 l).
Qed.
(** Read back in chunks of 7 bytes. *)
Definition chunks (k n : nat) (b : bytes) : list bytes := map (fun i => firstn k (skipn (i * k) b)) (seq 0 n).
Example c39_case : match y_files (run1 turns 400) !! 0 with
  | Some f => match Reader.load_all_archival_records unmarshal (Reader.mkin (List.filter (fun c => negb (Nat.eqb (length c) 0)) (chunks 7 600 (f_data f))) false ErrEOF) with
              | Ret (m :: rs, None) => ar_meta m = Some (mkmeta (str "host_5e0be100_0000000000000007"%string) 0 second) /\
                                       map ar_time rs = [second; 3 * second]%Z
              | _ => False
              end
  | None => False
  end.
Proof. vm_compute. split; reflexivity. Qed.

(** Without the condition on times the claim is false: a block whose time cannot
    be written leaves empty lines, which LoadAllArchivalRecords rejects. *)
Definition late : list block := [blk 253402300800 [conn_msg 7 10 20]].
Theorem C39_any_time_refuted : exists y f, reachable w0 cf0 1 anon0 (json_line utc) (header_line utc) late y /\ y_wg y = 0 /\ y_files y !! 0 = Some f /\
  Reader.load_all_archival_records unmarshal (Reader.mkin [f_data f] false ErrEOF) = Ret ([], Some ErrJSON).
Proof.
  set (y := schedule w0 cf0 1 anon0 (json_line utc) (header_line utc) turns 400 (initial cf0 late)).
  destruct (y_files y !! 0) as [f|] eqn:E; [|vm_compute in E; discriminate E].
  exists y, f. split; [apply schedule_steps|]. split; [vm_compute; reflexivity|]. split; [exact E|].
  assert (A : option_map f_data (y_files y !! 0) = Some [x0a; x0a]) by (vm_compute; reflexivity).
  rewrite E in A. injection A as ->. vm_compute. reflexivity.
Qed.
Print Assumptions C39_any_time_refuted.

(** With netlink messages of at most 48000 bytes (and a UUID prefix of at most
    10000) no line of any file is ever too long for the reader, so nothing has to
    be assumed about the lines. *)
Theorem C39_lines_fit : forall w cf cap anon zone, (forall x, length (anon x) = length x) -> 1 <= nmarsh cf ->
  forall bs, all_comparable cf bs ->
  Forall (writable_time zone) (zero_time :: block_times bs) -> utf8 (uuid_prefix w) ->
  (Z.of_nat (length (log_of w cf bs)) <= 9223372036854775807)%Z ->
  Forall (messages_up_to 48000) bs -> (N.of_nat (length (uuid_prefix w)) <= 10000)%N ->
  forall y wr f, 1 <= cap -> Forall (parses cf) bs -> fair_order w ->
  reachable w cf cap anon (json_line zone) (header_line zone) bs y -> y_files y !! wr = Some f ->
  Forall SpecReader.short (SpecReader.lines (f_data f)).
Proof. exact lines_short. Qed.
Print Assumptions C39_lines_fit.

Theorem C39_small_messages : forall w cf cap anon zone, (forall x, length (anon x) = length x) -> 1 <= nmarsh cf ->
  forall bs, all_comparable cf bs ->
  Forall (writable_time zone) (zero_time :: block_times bs) -> utf8 (uuid_prefix w) ->
  (Z.of_nat (length (log_of w cf bs)) <= 9223372036854775807)%Z ->
  Forall (messages_up_to 48000) bs -> (N.of_nat (length (uuid_prefix w)) <= 10000)%N ->
  forall y wr f i, 1 <= cap -> Forall (parses cf) bs -> fair_order w ->
  reachable w cf cap anon (json_line zone) (header_line zone) bs y -> y_wg y = 0 -> y_files y !! wr = Some f ->
  SpecReader.solid i -> SpecReader.contents i = f_data f ->
  exists md, AHeader wr md ∈ log_of w cf bs /\
    Reader.load_all_archival_records unmarshal i = Ret (recovered anon md (queued (file_actions wr (log_of w cf bs))), None).
Proof. exact small_read_back. Qed.
Print Assumptions C39_small_messages.

Example c39_small : Forall (messages_up_to 48000) bs0 /\ (N.of_nat (length (uuid_prefix w0)) <= 10000)%N.
Proof.
  split; [|vm_compute; discriminate].
  assert (A : forallb (fun b => forallb (fun m => match m with Some msg => (N.of_nat (length (vis (m_data msg))) <=? 48000)%N | None => true end)
    (V4Messages b ++ V6Messages b)) bs0 = true) by (vm_compute; reflexivity).
  rewrite List.forallb_forall in A. apply Forall_forall. intros b Hb. apply elem_of_list_In in Hb. specialize (A b Hb).
  rewrite List.forallb_forall in A. apply Forall_forall. intros m Hm msg ->. apply elem_of_list_In in Hm. by apply N.leb_le, (A _ Hm).
Qed.

(** The size matters: one message of 49284 bytes, which a netlink buffer of 64 KiB
    can hold, makes a line at which LoadAllArchivalRecords stops without an error:
    of the two records of the file none is read. *)
Definition big_msg : nlmsg :=
  sample_msg (sample_hdr 2 1 443 5000 (v4 10 0 0 1) (v4 192 0 2 7) 7 ++ sample_attr 2 (sample_info 10 20) ++ sample_attr 9 (repeat x00 (Z.to_nat 48972))).
Definition bigs : list block := [blk 1 [big_msg]; blk 2 [conn_msg 7 30 40]].
Theorem C39_large_message_refuted : exists y f, reachable w0 cf0 1 anon0 (json_line utc) (header_line utc) bigs y /\ y_wg y = 0 /\ y_files y !! 0 = Some f /\
  N.of_nat (length (vis (m_data big_msg))) = 49284%N /\ length (queued (file_actions 0 (log_of w0 cf0 bigs))) = 2 /\
  exists md, Reader.load_all_archival_records unmarshal (Reader.mkin [f_data f] false ErrEOF) = Ret ([mkar zero_time None [] (Some md)], None).
Proof.
  set (y := schedule w0 cf0 1 anon0 (json_line utc) (header_line utc) turns 400 (initial cf0 bigs)).
  set (got := fun f => Reader.load_all_archival_records unmarshal (Reader.mkin [f_data f] false ErrEOF)).
  assert (A : option_map got (y_files y !! 0) = Some (Ret ([mkar zero_time None [] (Some (mkmeta (str "host_5e0be100_0000000000000007"%string) 0 second))], None)))
    by (vm_compute; reflexivity).
  assert (B : y_wg y = 0) by (vm_compute; reflexivity).
  assert (R : reachable w0 cf0 1 anon0 (json_line utc) (header_line utc) bigs y) by apply schedule_steps.
  clearbody y. destruct (y_files y !! 0) as [f|] eqn:E; [|discriminate A]. exists y, f. split; [exact R|]. split; [exact B|]. split; [exact E|].
  split; [vm_compute; reflexivity|]. split; [vm_compute; reflexivity|]. eexists. apply (f_equal (fun o => match o with Some x => x | None => Panic end)) in A. exact A.
Qed.
Print Assumptions C39_large_message_refuted.
