(** Properties C36 and C37: reading JSON lines and raw netlink streams. *)
From Coq Require Import Strings.String List NArith ZArith Bool Arith Lia.
From Verif Require Import GoBase Netlink Reader SpecReader ReaderFacts Snapshot SpecSnapshot SnapshotFacts Samples.
Import ListNotations.
Local Open Scope list_scope.

(** C36: the whole behaviour, for any chunking of the stream and any final
    error. *)
Theorem C36_reading : forall unmarshal i, proper_unmarshal unmarshal -> solid i ->
  load_all_archival_records unmarshal i = Ret (records_of unmarshal (in_eager i) (lines (contents i))).
Proof. exact (fun u i H => load_archive u H i). Qed.
Print Assumptions C36_reading.

(** With short lines: one record per line ... *)
Theorem C36_all_lines : forall unmarshal i rs, proper_unmarshal unmarshal -> solid i ->
  Forall short (lines (contents i)) ->
  (load_all_archival_records unmarshal i = Ret (rs, None) <->
   Forall2 (fun l r => line_record unmarshal l = Ret r) (lines (contents i)) rs).
Proof. exact (fun u i rs H => load_all_lines u H i rs). Qed.
Print Assumptions C36_all_lines.

(** ... up to the first that does not decode, which is reported. *)
Theorem C36_first_error : forall unmarshal i rs e, proper_unmarshal unmarshal -> solid i ->
  Forall short (lines (contents i)) ->
  (load_all_archival_records unmarshal i = Ret (rs, Some e) <->
   exists ls1 l ls2, lines (contents i) = ls1 ++ l :: ls2 /\
     Forall2 (fun l r => line_record unmarshal l = Ret r) ls1 rs /\ line_record unmarshal l = Fail e).
Proof. exact (fun u i rs e H => load_first_error u H i rs e). Qed.
Print Assumptions C36_first_error.

(** A line that is too long ends the stream without an error. *)
Theorem C36_silent_truncation : forall unmarshal i ls1 l ls2 rs, proper_unmarshal unmarshal -> solid i ->
  lines (contents i) = ls1 ++ l :: ls2 -> Forall short ls1 -> fits (in_eager i) l = false ->
  Forall2 (fun l r => line_record unmarshal l = Ret r) ls1 rs ->
  load_all_archival_records unmarshal i = Ret (rs, None).
Proof. exact (fun u i ls1 l ls2 rs H => load_truncated u H i ls1 l ls2 rs). Qed.
Print Assumptions C36_silent_truncation.

(** The final error of the source is never reported. *)
Theorem C36_silent_read_error : forall unmarshal cs eager e1 e2, proper_unmarshal unmarshal ->
  Forall (fun c => c <> []) cs ->
  load_all_archival_records unmarshal (mkin cs eager e1) = load_all_archival_records unmarshal (mkin cs eager e2).
Proof. exact (fun u cs g e1 e2 H => load_any_error u H cs g e1 e2). Qed.
Print Assumptions C36_silent_read_error.

(** Samples: a toy unmarshaller accepts lines that begin with "{". *)
Definition toy (l : bytes) : outcome archival :=
  match l with x7b :: r => Ret (mkar (Z.of_nat (length r)) None [] None) | _ => Fail ErrJSON end.
Lemma toy_proper : proper_unmarshal toy.
Proof.
  intros l. destruct l as [|[] l]; try (right; exists ErrJSON; split; [reflexivity|discriminate]).
  left. eexists. reflexivity.
Qed.
Definition rec_of (n : Z) : archival := mkar n None [] None.
Definition in0 : input := mkin [str "{a"; [x0d]; [x0a; x7b]; [x0a]; str "{abc"] false ErrIO.
Example C36_ex : solid in0 /\ Forall short (lines (contents in0)) /\
  load_all_archival_records toy in0 = Ret ([rec_of 1; rec_of 0; rec_of 3], None).
Proof.
  split; [repeat constructor; discriminate|]. split; [|vm_compute; reflexivity].
  repeat constructor.
Qed.
Example C36_ex_bad : load_all_archival_records toy (mkin [str "{a"; [x0a; x0a]; str "{b"] true ErrEOF) = Ret ([rec_of 1], Some ErrJSON).
Proof. vm_compute. reflexivity. Qed.

(** A record after a line of 65536 bytes is lost, one after 65535 is not. *)
Definition with_line (n : N) : input := mkin [x7b :: repeat x61 (N.to_nat (n - 1)) ++ [x0a]; str "{b"] false ErrEOF.
Theorem C36_no_loss_refuted : exists i rs, solid i /\
  load_all_archival_records toy i = Ret (rs, None) /\ length rs <> length (lines (contents i)).
Proof.
  exists (with_line 65536), []. split; [repeat constructor; discriminate|]. split; [vm_compute; reflexivity|].
  intros H. symmetry in H. apply length_zero_iff_nil in H. apply lines_nonempty in H; [exact H|]. discriminate.
Qed.
Print Assumptions C36_no_loss_refuted.
Example C36_ex_65535 : match load_all_archival_records toy (with_line 65535) with
  | Ret (rs, None) => map ar_time rs = [65534; 1]%Z | _ => False end.
Proof. vm_compute. reflexivity. Qed.

(** C37: all messages are read back; then comes the error of the source, or
    ErrUnexpectedEOF if the stream stops inside a message, except right after a
    header. *)
Theorem C37_messages : forall i ms p m q, solid i -> Forall proper ms ->
  contents i = concat (map wire ms) ++ p -> p = [] \/ (proper m /\ p ++ q = wire m /\ q <> []) ->
  loads i ms (stop_error (in_err i) p).
Proof. exact loads_all. Qed.
Print Assumptions C37_messages.

Theorem C37_records : forall i ms e rs, loads i ms e ->
  Forall2 (fun m r => make_archival_record m None = Ret (Some r)) ms rs -> yields raw_next i rs e.
Proof. exact (fun i ms e rs H => loads_yields i ms rs e H). Qed.
Print Assumptions C37_records.

Theorem C37_uncut : forall i ms, solid i -> Forall proper ms -> in_err i = ErrEOF ->
  contents i = concat (map wire ms) -> loads i ms ErrEOF.
Proof. exact loads_uncut. Qed.
Print Assumptions C37_uncut.

(** So a stream cut right after a header cannot be told from a complete one. *)
Theorem C37_detects_truncation_refuted : exists i j ms m, solid i /\ solid j /\ proper m /\ Forall proper ms /\
  contents i = concat (map wire ms) /\
  (exists q, q <> [] /\ contents j ++ q = concat (map wire (ms ++ [m]))) /\
  contents j <> contents i /\
  loads i ms ErrEOF /\ loads j ms ErrEOF.
Proof.
  set (m := sample_msg (hdr_a ++ sample_attr 5 [x01; x00; x00; x00])).
  set (a := sample_msg hdr_a).
  assert (Pm : proper m) by (vm_compute; repeat split).
  assert (Pa : proper a) by (vm_compute; repeat split).
  exists (mkin [wire a] false ErrEOF), (mkin [wire a; firstn 16 (wire m)] false ErrEOF), [a], m.
  assert (Si : solid (mkin [wire a] false ErrEOF)) by (repeat constructor; discriminate).
  assert (Sj : solid (mkin [wire a; firstn 16 (wire m)] false ErrEOF)) by (repeat constructor; discriminate).
  split; [exact Si|]. split; [exact Sj|]. split; [exact Pm|]. split; [repeat constructor; apply Pa|].
  split; [reflexivity|]. split.
  { exists (skipn 16 (wire m)). split; [discriminate|vm_compute; reflexivity]. }
  split; [intros H; apply (f_equal (fun l => Nat.eqb (length l) 88)) in H; vm_compute in H; discriminate H|].
  split.
  - apply (C37_uncut (mkin [wire a] false ErrEOF)); [exact Si|constructor; [exact Pa|constructor]|reflexivity|reflexivity].
  - change ErrEOF with (stop_error ErrEOF (firstn 16 (wire m))) at 2.
    apply (C37_messages (mkin [wire a; firstn 16 (wire m)] false ErrEOF) [a] _ m (skipn 16 (wire m)));
      [exact Sj|constructor; [exact Pa|constructor]|vm_compute; reflexivity|].
    right. split; [exact Pm|]. split; [vm_compute; reflexivity|discriminate].
Qed.
Print Assumptions C37_detects_truncation_refuted.

Example C37_ex : exists r1 r2, yields raw_next
   (mkin [firstn 50 (wire (conn_msg 7 1 2)); skipn 50 (wire (conn_msg 7 1 2)) ++ wire (bare_msg 3); firstn 20 (wire (bare_msg 4))] true ErrEOF)
   [r1; r2] ErrUnexpectedEOF /\ ar_raw r2 = Some (vis (m_data (bare_msg 3))).
Proof.
  assert (P : forall k, proper (bare_msg k)).
  { intros k. unfold proper, bare_msg, sample_msg, sample_hdr. cbn [m_header m_data vis spare h_len h_type h_flags h_seq h_pid].
    repeat split. }
  eexists _, _. split.
  - eapply C37_records.
    + change ErrUnexpectedEOF with (stop_error ErrEOF (firstn 20 (wire (bare_msg 4)))).
      apply (C37_messages (mkin _ true ErrEOF) [conn_msg 7 1 2; bare_msg 3] _ (bare_msg 4) (skipn 20 (wire (bare_msg 4)))).
      * repeat constructor; discriminate.
      * constructor; [vm_compute; repeat split|constructor; [apply P|constructor]].
      * vm_compute. reflexivity.
      * right. split; [apply P|]. split; [vm_compute; reflexivity|discriminate].
    + constructor; [vm_compute; reflexivity|constructor; [vm_compute; reflexivity|constructor]].
  - vm_compute. reflexivity.
Qed.

(** A header length below 16 wraps to almost 4 GiB: everything that follows is
    swallowed. *)
Theorem C37_short_header_refuted : exists i m, proper m /\ solid i /\
  contents i = le_enc 4 15 ++ repeat x00 12 ++ wire m /\ loads i [] ErrUnexpectedEOF.
Proof.
  exists (mkin [le_enc 4 15 ++ repeat x00 12; wire (bare_msg 1)] false ErrEOF), (bare_msg 1).
  split; [vm_compute; repeat split|]. split; [repeat constructor; discriminate|]. split; [vm_compute; reflexivity|].
  eapply loads_end. vm_compute. reflexivity.
Qed.
Print Assumptions C37_short_header_refuted.
