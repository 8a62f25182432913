(** Properties C32 to C35: decoding archival records into snapshots. *)
From Coq Require Import Strings.String List NArith ZArith Bool Arith Lia.
From Verif Require Import GoBase Layout Inetdiag Netlink Snapshot SpecSnapshot SnapshotFacts Samples.
Import ListNotations.
Local Open Scope list_scope.

(** Samples: a record with a truncated TCP_INFO, MEMINFO, congestion algorithm,
    an over-long SKMEMINFO, a one-byte and an empty one-byte field, an undecoded
    type and a mark. *)
Definition gs (b : bytes) : option gslice := Some (mkslice b []).
Definition rec0 : archival :=
  mkar 77 (Some hdr_a)
    [None; gs (le_enc 4 10 ++ le_enc 4 11); gs (firstn 130 (sample_info 9 300)); None; gs (str "cubic" ++ [x00]);
     gs [x10]; gs []; gs (repeat x01 40); None; None; None; gs [x01]; None; None; None; gs (le_enc 4 4711)]
    (Some (mkmeta (str "uuid") 3 5)).

(** C32 *)
Theorem C32_fields : forall ar m s, decode ar = Ret (m, s) -> m = ar_meta ar /\ decoded ar s.
Proof. exact decode_spec. Qed.
Print Assumptions C32_fields.

Theorem C32_accepts : forall ar, (exists x, decode ar = Ret x) <-> acceptable ar /\ attr ar 4 <> Some [].
Proof. exact decode_ret. Qed.
Print Assumptions C32_accepts.

Theorem C32_rejects : forall ar e, decode ar = Fail e <->
  (ar_raw ar = None /\ ar_meta ar = None /\ e = ErrEmptyRecord) \/
  (exists raw, ar_raw ar = Some raw /\ length raw < 72 /\ e = ErrParseFailed).
Proof. exact decode_fail. Qed.
Print Assumptions C32_rejects.

Example C32_ex : exists s, decode rec0 = Ret (Some (mkmeta (str "uuid") 3 5), s)
  /\ sn_time s = 77%Z /\ sn_cong s = str "cubic" /\ sn_tos s = 16%N /\ sn_mark s = 4711%N /\ sn_bbr s = None
  /\ option_map (get_field "Wmem") (sn_mem s) = Some (Some (VInt 11))
  /\ option_map (get_field "Fmem") (sn_mem s) = Some (Some (VInt 0))
  /\ option_map (get_field "BytesReceived") (sn_tcp s) = Some (Some (VInt 300))
  /\ option_map (get_field "BytesAcked") (sn_tcp s) = Some (Some (VInt 72340172838076673))
  /\ option_map (get_field "BytesSent") (sn_tcp s) = Some (Some (VInt 0))
  /\ option_map (fun m => sport (idiag_id m)) (sn_idm s) = Some 443%N.
Proof. eexists. split; [vm_compute; reflexivity|]. repeat split; vm_compute; reflexivity. Qed.

(** C33 *)
Theorem C33_observed : forall ar m s i, length (ar_attrs ar) <= 256 -> decode ar = Ret (m, s) ->
  (N.testbit (sn_observed s) i = true <-> (i < 32)%N /\ exists raw, attr ar (S (N.to_nat i)) = Some raw).
Proof. exact observed_bits. Qed.
Print Assumptions C33_observed.

Theorem C33_not_fully_parsed : forall ar m s i, length (ar_attrs ar) <= 256 -> decode ar = Ret (m, s) ->
  (N.testbit (sn_notparsed s) i = true <->
   (i < 32)%N /\ exists raw, attr ar (S (N.to_nat i)) = Some raw /\ poorly_parsed (S (N.to_nat i)) raw).
Proof. exact notparsed_bits. Qed.
Print Assumptions C33_not_fully_parsed.

Theorem C33_subset : forall ar m s i, decode ar = Ret (m, s) ->
  N.testbit (sn_notparsed s) i = true -> N.testbit (sn_observed s) i = true.
Proof. exact notparsed_subset. Qed.
Print Assumptions C33_subset.

Example C33_ex : exists x s, decode rec0 = Ret (x, s) /\ length (ar_attrs rec0) <= 256
  /\ sn_observed s = (1 + 2 + 8 + 16 + 32 + 64 + 1024 + 16384)%N
  /\ sn_notparsed s = (32 + 64 + 1024)%N.
Proof. eexists _, _. split; [vm_compute; reflexivity|]. repeat split; vm_compute; try reflexivity; lia. Qed.

(** The bound on the number of slots is needed: bit 0 set by attribute 257. *)
Definition rec_257 : archival := mkar 0 (Some hdr_a) (repeat None 257 ++ [gs [x01]]) None.
Theorem C33_unbounded_refuted : exists ar m s, decode ar = Ret (m, s) /\
  N.testbit (sn_observed s) 0 = true /\ attr ar 1 = None.
Proof. exists rec_257. eexists _, _. repeat split; vm_compute; reflexivity. Qed.
Print Assumptions C33_unbounded_refuted.

(** "Fully parsed" does not mean that nothing is lost: two different 4-byte class
    ids give the same snapshot, with no bit in NotFullyParsed. *)
Definition rec_class (c : bytes) : archival := mkar 0 (Some hdr_a) (repeat None 17 ++ [gs c]) None.
Theorem C33_class_id_refuted : exists a b s, a <> b /\ length a = 4 /\ length b = 4 /\
  decode (rec_class a) = Ret (None, s) /\ decode (rec_class b) = Ret (None, s) /\ sn_notparsed s = 0%N.
Proof.
  exists (le_enc 4 1), (le_enc 4 257). eexists. split; [discriminate|]. repeat split; vm_compute; reflexivity.
Qed.
Print Assumptions C33_class_id_refuted.

(** C34 *)
Theorem C34_panic_iff : forall ar, decode ar = Panic <-> acceptable ar /\ attr ar 4 = Some [].
Proof. exact decode_panic. Qed.
Print Assumptions C34_panic_iff.

Theorem C34_reachable : exists msg ar, make_archival_record msg None = Ret (Some ar) /\ decode ar = Panic.
Proof.
  exists (sample_msg (hdr_a ++ sample_attr 4 [])).
  exists (mkar zero_time (Some hdr_a) [None; None; None; None; gs []] None). split; vm_compute; reflexivity.
Qed.
Print Assumptions C34_reachable.

Example C34_ex : acceptable rec0 /\ attr rec0 4 = Some (str "cubic" ++ [x00]).
Proof. split; [vm_compute; lia|vm_compute; reflexivity]. Qed.

(** C35 *)
Theorem C35_success : forall S (next : reader S) s rs e fuel m ss, yields next s rs e -> length rs < fuel ->
  (load_all fuel next s = Ret (m, ss) <->
   e = ErrEOF /\ m = last_meta rs /\ Forall2 (fun r sn => decode (timed r) = Ret (ar_meta r, sn)) rs ss).
Proof. exact @load_all_ret. Qed.
Print Assumptions C35_success.

Theorem C35_error : forall S (next : reader S) s rs e fuel x, yields next s rs e -> length rs < fuel ->
  (load_all fuel next s = Fail x <->
   (exists rs1 r rs2, rs = rs1 ++ r :: rs2 /\ Forall decodes rs1 /\ decode (timed r) = Fail x) \/
   (Forall decodes rs /\ x = e /\ e <> ErrEOF)).
Proof. exact @load_all_fail. Qed.
Print Assumptions C35_error.

Theorem C35_panic : forall S (next : reader S) s rs e fuel, yields next s rs e -> length rs < fuel ->
  (load_all fuel next s = Panic <->
   exists rs1 r rs2, rs = rs1 ++ r :: rs2 /\ Forall decodes rs1 /\ decode (timed r) = Panic).
Proof. exact @load_all_panic. Qed.
Print Assumptions C35_panic.

(** A reader of a list of records. *)
Definition list_reader (e : goerr) : reader (list archival) :=
  fun l => match l with [] => (Fail e, []) | r :: t => (Ret r, t) end.
Definition rec1 : archival := mkar zero_time (Some hdr_a) [] None.
Definition rec2 : archival := mkar 80 None [] (Some (mkmeta (str "second") 4 6)).
Definition rec_bad : archival := mkar 80 None [] None.
Example C35_ex : yields (list_reader ErrEOF) [rec0; rec1; rec2; rec1] [rec0; rec1; rec2; rec1] ErrEOF /\
  exists ss, load_all 5 (list_reader ErrEOF) [rec0; rec1; rec2; rec1] = Ret (Some (mkmeta (str "second") 4 6), ss)
    /\ map sn_time ss = [77; 1243641599000000000; 80; 1243641599000000000]%Z.
Proof.
  split.
  - repeat (eapply yields_more; [reflexivity|]). eapply yields_end. reflexivity.
  - eexists. split; vm_compute; reflexivity.
Qed.
Example C35_ex_error : load_all 5 (list_reader ErrEOF) [rec0; rec_bad; rec2] = Fail ErrEmptyRecord
  /\ load_all 5 (list_reader ErrIO) [rec0; rec2] = Fail ErrIO.
Proof. split; vm_compute; reflexivity. Qed.
