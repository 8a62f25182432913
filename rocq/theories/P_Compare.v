(** Properties C09 - C14: comparison, statistics, identity, anonymization. *)
From Coq Require Import Strings.String List NArith ZArith Arith.
From Verif Require Import GoBase NetIP Inetdiag Netlink SpecNetlink SpecCompare RecordFacts CompareFacts Samples.
Import ListNotations.

Definition rec_with (state : N) (attrs : list (option gslice)) : archival :=
  mkar 0 (Some (sample_hdr 2 state 443 5000 (v4 10 0 0 1) (v4 192 0 2 7) 12345)) attrs None.
Definition full (b : bytes) : option gslice := Some (mkslice b []).
Definition r1 : archival := rec_with 1 [None; None; full (sample_info 1000 2000); full [x01]].
Definition r2 : archival := rec_with 1 [None; None; full (sample_info 1001 2000); full [x01]].
Definition r3 : archival := rec_with 1 [None; None; full (sample_info 1001 2000); full [x02]].

(** C09 *)
Theorem C09_no_change_iff : forall new old, comparable old -> comparable new ->
  (compare new (Some old) = Ret NoMajorChange <-> no_significant_change old new).
Proof. exact compare_no_change_iff. Qed.
Print Assumptions C09_no_change_iff.

Theorem C09_verdict : forall new old c, comparable old -> comparable new ->
  (compare new (Some old) = Ret c <-> verdict old new c).
Proof. exact compare_iff. Qed.
Print Assumptions C09_verdict.

Theorem C09_first_record : forall new, compare new None = Ret PreviousWasNil.
Proof. reflexivity. Qed.
Print Assumptions C09_first_record.

Theorem C09_header_irrelevant : forall new old h1 h2,
  72 <= length h1 -> 72 <= length h2 -> 72 <= length (header old) -> 72 <= length (header new) ->
  hdr_state h1 = hdr_state (header new) -> hdr_state h2 = hdr_state (header old) ->
  compare (mkar (ar_time new) (Some h1) (ar_attrs new) (ar_meta new))
          (Some (mkar (ar_time old) (Some h2) (ar_attrs old) (ar_meta old))) = compare new (Some old).
Proof. exact compare_header_irrelevant. Qed.
Print Assumptions C09_header_irrelevant.

Theorem C09_only_significant_content : forall a a' b b',
  comparable a -> comparable a' -> comparable b -> comparable b' ->
  no_significant_change a a' -> no_significant_change b b' -> compare b (Some a) = compare b' (Some a').
Proof. exact compare_congr. Qed.
Print Assumptions C09_only_significant_content.

Lemma r_carries r : In r [r1; r2; r3] -> carries_info r.
Proof.
  intros [<-|[<-|[<-|[]]]]; (split; [vm_compute; repeat constructor|]);
  eexists; (split; [reflexivity|vm_compute; repeat constructor]).
Qed.
(** BytesSent (offset 200) is beyond BusyTime, so it does not count... *)
Example bytes_sent_ignored : compare r2 (Some r1) = Ret NoMajorChange.
Proof. vm_compute. reflexivity. Qed.
(** ...a changed attribute does. *)
Example attribute_counts : compare r3 (Some r2) = Ret Other.
Proof. vm_compute. reflexivity. Qed.

(** C10 *)
Theorem C10_reflexive : forall r, carries_info r -> compare r (Some r) = Ret NoMajorChange.
Proof. exact compare_refl. Qed.
Print Assumptions C10_reflexive.

Theorem C10_swap : forall a b c, comparable a -> comparable b ->
  (compare a (Some b) = Ret c <-> compare b (Some a) = Ret (swap_change c)).
Proof. exact compare_swap. Qed.
Print Assumptions C10_swap.

Theorem C10_transitive : forall a b c, comparable a -> comparable b -> comparable c ->
  compare b (Some a) = Ret NoMajorChange -> compare c (Some b) = Ret NoMajorChange ->
  compare c (Some a) = Ret NoMajorChange.
Proof. exact compare_trans. Qed.
Print Assumptions C10_transitive.

Theorem C10_reference : forall a b c, comparable a -> comparable b -> comparable c ->
  compare b (Some a) = Ret NoMajorChange ->
  (compare c (Some b) = Ret NoMajorChange <-> compare c (Some a) = Ret NoMajorChange).
Proof. exact compare_reference. Qed.
Print Assumptions C10_reference.

Example c10_case : compare r3 (Some r1) = Ret Other /\ carries_info r1.
Proof. split; [vm_compute; reflexivity|apply r_carries; cbn; auto]. Qed.

(** C11 *)
Theorem C11_panic_iff : forall new prev,
  compare new prev = Panic <->
  exists old a b, prev = Some old /\ 72 <= length (header old) /\ 72 <= length (header new) /\
    hdr_state (header old) = hdr_state (header new) /\
    nth 2 (ar_attrs old) None = Some a /\ nth 2 (ar_attrs new) None = Some b /\
    (length (vis a) + length (spare a) < 168 \/ length (vis b) + length (spare b) < 168).
Proof. exact compare_panic_iff. Qed.
Print Assumptions C11_panic_iff.

Theorem C11_error_iff : forall new prev e,
  compare new prev = Fail e <->
  e = ErrParseFailed /\ exists old, prev = Some old /\ (length (header old) < 72 \/ length (header new) < 72).
Proof. exact compare_fail_iff. Qed.
Print Assumptions C11_error_iff.

Definition short_info (sp : bytes) : archival := rec_with 1 [None; None; Some (mkslice (repeat x01 100) sp)].
(** A TCP_INFO of 100 bytes at the end of its buffer crashes Compare. *)
Theorem C11_never_panics_refuted : exists r, 72 <= length (header r) /\ compare r (Some r) = Panic.
Proof. exists (short_info []). split; [vm_compute; repeat constructor|vm_compute; reflexivity]. Qed.
Print Assumptions C11_never_panics_refuted.

(** Two records with identical contents, told apart by bytes outside them. *)
Theorem C11_outside_bytes_refuted : exists a b,
  ar_raw a = ar_raw b /\ map (option_map vis) (ar_attrs a) = map (option_map vis) (ar_attrs b) /\
  compare b (Some a) = Ret StateOrCounterChange.
Proof. exists (short_info (repeat x02 68)), (short_info (repeat x03 68)). vm_compute. repeat split. Qed.
Print Assumptions C11_outside_bytes_refuted.

(** C12 *)
Theorem C12_get_stats : forall r i, slot 2 r = Some i -> 208 <= length i ->
  get_stats r = (le (at_ 200 8 i), le (at_ 128 8 i)).
Proof. exact get_stats_some. Qed.
Print Assumptions C12_get_stats.

Theorem C12_get_stats_otherwise : forall r,
  (forall i, slot 2 r = Some i -> length i < 208) -> get_stats r = (0%N, 0%N).
Proof. exact get_stats_none. Qed.
Print Assumptions C12_get_stats_otherwise.

Theorem C12_has_diag_info : forall r, has_diag_info r = true <-> 2 < length (ar_attrs r).
Proof. exact has_diag_info_iff. Qed.
Print Assumptions C12_has_diag_info.

(** HasDiagInfo holds for a record that has no TCP_INFO (only SHUTDOWN). *)
Theorem C12_has_diag_info_means_info_refuted : exists msg r,
  make_archival_record msg None = Ret (Some r) /\ has_diag_info r = true /\ slot 2 r = None.
Proof.
  exists (sample_msg (hdr_a ++ wire_attr 8 [x03] [x00; x00; x00])). eexists.
  split; [vm_compute; reflexivity|]. vm_compute. split; reflexivity.
Qed.
Print Assumptions C12_has_diag_info_means_info_refuted.

Example stats_case : get_stats r2 = (1001%N, 2000%N).
Proof. vm_compute. reflexivity. Qed.

(** C13 *)
Theorem C13_socket_identity : forall raw, 72 <= length raw ->
  exists m, parse_idm (Some raw) = Ret m /\
  let s := get_sockid (idiag_id m) in
  sid_sport s = hdr_sport raw /\ sid_dport s = hdr_dport raw /\ sid_if s = hdr_if raw /\
  cookie_uint64 s = hdr_cookie raw /\ cookie (idiag_id m) = hdr_cookie raw.
Proof. exact sockid_fields. Qed.
Print Assumptions C13_socket_identity.

Theorem C13_distinct_cookies : forall raw raw' m m',
  parse_idm (Some raw) = Ret m -> parse_idm (Some raw') = Ret m' ->
  hdr_cookie raw <> hdr_cookie raw' -> get_sockid (idiag_id m) <> get_sockid (idiag_id m').
Proof. exact sockid_inj. Qed.
Print Assumptions C13_distinct_cookies.

(** The largest cookie becomes -1 in the signed field and comes back. *)
Example cookie_max : exists m,
  parse_idm (Some (sample_hdr 2 1 443 5000 (v4 10 0 0 1) (v4 192 0 2 7) 18446744073709551615)) = Ret m /\
  sid_cookie (get_sockid (idiag_id m)) = (-1)%Z /\
  cookie_uint64 (get_sockid (idiag_id m)) = 18446744073709551615%N.
Proof. eexists. split; [vm_compute; reflexivity|]. vm_compute. split; reflexivity. Qed.

(** C14 *)
Theorem C14_anonymize_ipv6 : forall anon raw,
  (forall x, length (anon x) = length x) -> 72 <= length raw -> hdr_family raw = 10%N ->
  anonymize anon raw = Ret (firstn 8 raw ++ anon (at_ 8 16 raw) ++ anon (at_ 24 16 raw) ++ skipn 40 raw).
Proof. exact anonymize_v6. Qed.
Print Assumptions C14_anonymize_ipv6.

Theorem C14_anonymize_ipv4 : forall anon raw,
  (forall x, length (anon x) = length x) -> 72 <= length raw -> hdr_family raw = 2%N ->
  anonymize anon raw =
  Ret (firstn 8 raw ++ anon (at_ 8 4 raw) ++ at_ 12 12 raw ++ anon (at_ 24 4 raw) ++ skipn 28 raw).
Proof. exact anonymize_v4. Qed.
Print Assumptions C14_anonymize_ipv4.

Theorem C14_anonymize_other_family : forall anon raw,
  72 <= length raw -> hdr_family raw <> 10%N -> hdr_family raw <> 2%N -> anonymize anon raw = Fail ErrUnknownAF.
Proof. exact anonymize_other. Qed.
Print Assumptions C14_anonymize_other_family.

Theorem C14_anonymize_short : forall anon raw, length raw < 72 -> anonymize anon raw = Fail ErrParseFailed.
Proof. exact anonymize_short. Qed.
Print Assumptions C14_anonymize_short.

(** Zeroing the last byte of an IPv4 address, the last eight of an IPv6 one. *)
Definition netblock (x : bytes) : bytes :=
  if Nat.eqb (length x) 4 then firstn 3 x ++ [x00] else firstn 8 x ++ repeat x00 (length x - 8).
Example anonymized : exists raw,
  anonymize netblock hdr_a = Ret raw /\ at_ 8 4 raw = firstn 4 (v4 10 0 0 0) /\ at_ 24 4 raw = firstn 4 (v4 192 0 2 0)
  /\ hdr_cookie raw = 12345%N.
Proof. eexists. split; [vm_compute; reflexivity|]. vm_compute. repeat split. Qed.
