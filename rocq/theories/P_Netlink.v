(** Properties C01 - C06: parsing and exclusion. *)
From Coq Require Import Strings.String List NArith ZArith Lia.
From Verif Require Import GoBase NetIP Inetdiag Netlink SpecNetlink NetlinkFacts AddrFacts RecordFacts Samples.
Import ListNotations.

(** C01 *)
Theorem C01_parse_route_attr_exact : forall b sp l,
  (exists attrs, parse_route_attr (mkslice b sp) = Ret attrs /\
     map (fun a => (rta_type a, vis (rta_value a))) attrs = l) <-> wire_area l b.
Proof. exact parse_route_attr_ret_iff. Qed.
Print Assumptions C01_parse_route_attr_exact.

Theorem C01_parse_route_attr_einval : forall b sp,
  parse_route_attr (mkslice b sp) = Fail EINVAL <-> wire_bad_length b.
Proof. exact parse_route_attr_einval_iff. Qed.
Print Assumptions C01_parse_route_attr_einval.

Definition area1 : bytes := wire_attr 8 [x05] [xaa; xbb; xcc] ++ wire_attr 4 (str "cubic"%string) [x00; x00; x00] ++ [x01].
Example area1_wire : wire_area [(8%N, [x05]); (4%N, str "cubic"%string)] area1.
Proof.
  exists (wire_attr 8 [x05] [xaa; xbb; xcc] ++ wire_attr 4 (str "cubic"%string) [x00; x00; x00] ++ []), [x01].
  split; [reflexivity|]. split; [|cbn; auto with arith].
  repeat constructor.
Qed.
Example area1_parsed : exists attrs, parse_route_attr (mkslice area1 [x77]) = Ret attrs /\
  map (fun a => (rta_type a, vis (rta_value a))) attrs = [(8%N, [x05]); (4%N, str "cubic"%string)].
Proof. eexists. split; vm_compute; reflexivity. Qed.
Example bad_length_ex : parse_route_attr (mkslice [x03; x00; x01; x00; x00] []) = Fail EINVAL.
Proof. vm_compute. reflexivity. Qed.

(** C02 *)
Theorem C02_make_archival_record_crash : forall msg ex,
  make_archival_record msg ex = Panic <->
  h_type (m_header msg) = 20%N /\ 72 <= length (data_of msg) /\
  not_excluded ex (raw_of msg) /\ wire_unpadded (area_of msg).
Proof. exact make_panic_iff. Qed.
Print Assumptions C02_make_archival_record_crash.

Theorem C02_make_archival_record_terminates : forall msg ex, make_archival_record msg ex <> Diverge.
Proof. exact make_no_diverge. Qed.
Print Assumptions C02_make_archival_record_terminates.

(** 77 bytes are enough to crash the parser. *)
Theorem C02_never_crashes_refuted : exists data,
  length data = 77 /\ make_archival_record (sample_msg data) None = Panic.
Proof. exists (hdr_a ++ wire_attr 8 [x05] []). vm_compute. split; reflexivity. Qed.
Print Assumptions C02_never_crashes_refuted.

(** C03 *)
Theorem C03_record_contents : forall msg ex r,
  make_archival_record msg ex = Ret (Some r) ->
  h_type (m_header msg) = 20%N /\ 72 <= length (data_of msg) /\ not_excluded ex (raw_of msg) /\
  exists l m, wire_area l (area_of msg) /\ largest_type l m /\
    ar_time r = zero_time /\ ar_meta r = None /\ ar_raw r = Some (raw_of msg) /\
    length (ar_attrs r) = S (N.to_nat (N.min 38 m)) /\
    forall t v, (t <= 38)%N ->
      ((exists s, nth (N.to_nat t) (ar_attrs r) None = Some s /\ vis s = v) <-> last_of t l v).
Proof. exact make_ret_some. Qed.
Print Assumptions C03_record_contents.

Theorem C03_well_formed_accepted : forall msg ex l,
  h_type (m_header msg) = 20%N -> 72 <= length (data_of msg) -> not_excluded ex (raw_of msg) ->
  wire_area l (area_of msg) -> exists r, make_archival_record msg ex = Ret (Some r).
Proof. exact make_accepts. Qed.
Print Assumptions C03_well_formed_accepted.

(** A duplicate type 8 and an out-of-range type 200: the last 8 wins, 200 is dropped. *)
Example record_ex : exists r,
  make_archival_record (sample_msg (hdr_a ++ wire_attr 8 [x05] [x00; x00; x00]
     ++ wire_attr 200 [x01; x02; x03; x04] [] ++ wire_attr 8 [x06; x07] [x00; x00])) None = Ret (Some r)
  /\ length (ar_attrs r) = 39 /\ option_map vis (nth 8 (ar_attrs r) None) = Some [x06; x07]
  /\ option_map vis (nth 38 (ar_attrs r) None) = None.
Proof. eexists. split; [vm_compute; reflexivity|]. vm_compute. repeat split. Qed.

(** C04 *)
Theorem C04_rejections : forall msg ex e,
  make_archival_record msg ex = Fail e <->
  (e = ErrNotType20 /\ h_type (m_header msg) <> 20%N)
  \/ (e = ErrParseFailed /\ h_type (m_header msg) = 20%N /\ length (data_of msg) < 72)
  \/ (e = EINVAL /\ h_type (m_header msg) = 20%N /\ 72 <= length (data_of msg) /\ not_excluded ex (raw_of msg)
      /\ wire_bad_length (area_of msg)).
Proof. exact make_fail_iff. Qed.
Print Assumptions C04_rejections.

Example rejected_short : make_archival_record (sample_msg (firstn 71 hdr_a)) None = Fail ErrParseFailed.
Proof. vm_compute. reflexivity. Qed.

(** C05 *)
Theorem C05_exclusion_exact : forall msg ex,
  make_archival_record msg ex = Ret None <->
  h_type (m_header msg) = 20%N /\ 72 <= length (data_of msg) /\
  exists e, ex = Some e /\
    should_exclude (ex_local e = true)
      (fun p => exists m, ex_srcports e = Some m /\ m p = true)
      (fun d => exists m, ex_dstips e = Some m /\ m d = true) (raw_of msg).
Proof. exact make_ret_none_iff. Qed.
Print Assumptions C05_exclusion_exact.

Example excluded_port : make_archival_record (sample_msg hdr_a) (Some (mkex false (Some (N.eqb 443)) None)) = Ret None.
Proof. vm_compute. reflexivity. Qed.
Example not_excluded_port : exists r,
  make_archival_record (sample_msg hdr_a) (Some (mkex true (Some (N.eqb 444)) None)) = Ret (Some r).
Proof. eexists. vm_compute. reflexivity. Qed.

(** C06 *)
Theorem C06_local_ipv4 : forall msg,
  h_type (m_header msg) = 20%N -> 72 <= length (data_of msg) ->
  tail_zero (hdr_src (data_of msg)) -> tail_zero (hdr_dst (data_of msg)) ->
  (make_archival_record msg (Some (mkex true None None)) = Ret None <->
   (let s := hdr_src (data_of msg) in v4_local (nthb 0 s) (nthb 1 s) (nthb 2 s) (nthb 3 s)) \/
   (let d := hdr_dst (data_of msg) in v4_local (nthb 0 d) (nthb 1 d) (nthb 2 d) (nthb 3 d))).
Proof. exact make_local_v4. Qed.
Print Assumptions C06_local_ipv4.

Theorem C06_local_ipv6 : forall msg,
  h_type (m_header msg) = 20%N -> 72 <= length (data_of msg) ->
  ~ tail_zero (hdr_src (data_of msg)) -> ~ tail_zero (hdr_dst (data_of msg)) ->
  (make_archival_record msg (Some (mkex true None None)) = Ret None <->
   v6_local (hdr_src (data_of msg)) \/ v6_local (hdr_dst (data_of msg))).
Proof. exact make_local_v6. Qed.
Print Assumptions C06_local_ipv6.

(** Each address on its own: one that is zero after its first four bytes by these
    four, any other by all sixteen. *)
Theorem C06_local_each : forall msg,
  h_type (m_header msg) = 20%N -> 72 <= length (data_of msg) ->
  let local x := (tail_zero x -> v4_local (nthb 0 x) (nthb 1 x) (nthb 2 x) (nthb 3 x)) /\ (~ tail_zero x -> v6_local x) in
  (make_archival_record msg (Some (mkex true None None)) = Ret None <->
   local (hdr_src (data_of msg)) \/ local (hdr_dst (data_of msg))).
Proof. exact make_local_each. Qed.
Print Assumptions C06_local_each.

Example local_v4_ex : make_archival_record (sample_msg (sample_hdr 2 1 80 81 (v4 10 0 0 1) (v4 127 9 9 9) 7))
  (Some (mkex true None None)) = Ret None.
Proof. vm_compute. reflexivity. Qed.
Example local_v6_ex : make_archival_record
  (sample_msg (sample_hdr 10 1 80 81 (v6 [32; 1; 13; 184] [1]) (v6 [254; 128] [5]) 7)%N) (Some (mkex true None None)) = Ret None.
Proof. vm_compute. reflexivity. Qed.

Example local_mixed_ex :
  let src := v6 [32; 1; 13; 184]%N [1]%N in let dst := v4 127 0 0 1 in
  ~ tail_zero src /\ tail_zero dst /\
  make_archival_record (sample_msg (sample_hdr 10 1 80 81 src dst 7)) (Some (mkex true None None)) = Ret None.
Proof.
  cbn zeta. split; [|split].
  - intros K. specialize (K 15 ltac:(lia)). vm_compute in K. discriminate.
  - intros i Hi. do 16 (destruct i as [|i]; [try lia; reflexivity|]). lia.
  - vm_compute. reflexivity.
Qed.

(** An AF_INET6 socket bound to fe80:: (link local, last 12 bytes zero) is not
    recognised as local, so the unrestricted IPv6 claim is false. *)
Theorem C06_local_ipv6_all_refuted : exists data,
  length data = 72 /\ hdr_family data = 10%N /\ v6_local (hdr_src data) /\
  exists r, make_archival_record (sample_msg data) (Some (mkex true None None)) = Ret (Some r).
Proof.
  exists (sample_hdr 10 1 80 81 (v6 [254; 128]%N []) (v6 [32; 1; 13; 184] [1])%N 7).
  split; [reflexivity|]. split; [reflexivity|]. split.
  - right. right. left. vm_compute. repeat split; discriminate.
  - eexists. vm_compute. reflexivity.
Qed.
Print Assumptions C06_local_ipv6_all_refuted.
