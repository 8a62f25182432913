(** Properties C07, C08: textual exclusion configuration. *)
From Coq Require Import Strings.String List NArith ZArith.
From Verif Require Import GoBase NetIP Inetdiag Netlink SpecNetlink SpecConfig NetlinkFacts AddrFacts RecordFacts ConfigFacts IPTextFacts IPTextSound Samples.
Import ListNotations.

(** C07 *)
Theorem C07_accepts_exactly : forall ex s,
  (exists ex', add_src_port ex s = Ret ex') <-> exists z, signed_decimal s z /\ (-32768 <= z <= 32767)%Z.
Proof. exact add_src_port_iff. Qed.
Print Assumptions C07_accepts_exactly.

Theorem C07_adds_exactly_that_port : forall ex s ex' z,
  add_src_port ex s = Ret ex' -> signed_decimal s z ->
  ex_local ex' = ex_local ex /\ ex_dstips ex' = ex_dstips ex /\
  forall q, (exists m, ex_srcports ex' = Some m /\ m q = true) <->
            q = Z.to_N (z mod 65536) \/ (exists m, ex_srcports ex = Some m /\ m q = true).
Proof. exact add_src_port_effect. Qed.
Print Assumptions C07_adds_exactly_that_port.

Theorem C07_low_port_excluded : forall ex p, (p <= 32767)%N ->
  exists ex', add_src_port ex (dec p) = Ret ex' /\
  forall msg, h_type (m_header msg) = 20%N -> 72 <= length (data_of msg) ->
    (make_archival_record msg (Some ex') = Ret None <->
     hdr_sport (data_of msg) = p \/ make_archival_record msg (Some ex) = Ret None).
Proof. exact port_excluded. Qed.
Print Assumptions C07_low_port_excluded.

(** Half of the port space cannot be excluded. *)
Theorem C07_high_ports_rejected : forall ex p, (32768 <= p)%N -> exists e, add_src_port ex (dec p) = Fail e.
Proof. exact port_rejected. Qed.
Print Assumptions C07_high_ports_rejected.

Theorem C07_every_port_refuted : exists p : N, (p < 65536)%N /\ add_src_port no_exclude (dec p) = Fail ErrRange.
Proof. exists 44301%N. vm_compute. split; reflexivity. Qed.
Print Assumptions C07_every_port_refuted.

Example port_443 : signed_decimal (str "443"%string) 443.
Proof. apply (dec_signed 443). Qed.
Example port_443_excludes : exists ex', add_src_port no_exclude (str "443"%string) = Ret ex' /\
  make_archival_record (sample_msg hdr_a) (Some ex') = Ret None.
Proof. eexists. split; vm_compute; reflexivity. Qed.
(** "-1" is accepted and excludes port 65535. *)
Example port_minus_one : exists ex', add_src_port no_exclude (str "-1"%string) = Ret ex' /\
  make_archival_record (sample_msg (sample_hdr 2 1 65535 80 (v4 1 1 1 1) (v4 2 2 2 2) 9)) (Some ex') = Ret None.
Proof. eexists. split; vm_compute; reflexivity. Qed.

(** C08 *)
Theorem C08_ipv4_destination : forall ex a b c d,
  (a < 256)%N -> (b < 256)%N -> (c < 256)%N -> (d < 256)%N ->
  exists ex', add_dst_ip ex (dotted a b c d) = Ret ex' /\
  forall msg, h_type (m_header msg) = 20%N -> 72 <= length (data_of msg) ->
    (make_archival_record msg (Some ex') = Ret None <->
     hdr_dst (data_of msg) = [byte_of a; byte_of b; byte_of c; byte_of d] ++ repeat x00 12
     \/ make_archival_record msg (Some ex) = Ret None).
Proof. exact add_dst_v4. Qed.
Print Assumptions C08_ipv4_destination.

Theorem C08_ipv6_destination : forall ex t x, ipv6_text t x -> ~ v4_mapped x ->
  exists ex', add_dst_ip ex t = Ret ex' /\
  forall msg, h_type (m_header msg) = 20%N -> 72 <= length (data_of msg) ->
    (make_archival_record msg (Some ex') = Ret None <->
     hdr_dst (data_of msg) = x \/ make_archival_record msg (Some ex) = Ret None).
Proof. exact add_dst_v6. Qed.
Print Assumptions C08_ipv6_destination.

Theorem C08_mapped_destination : forall ex t x, ipv6_text t x -> v4_mapped x ->
  exists ex', add_dst_ip ex t = Ret ex' /\
  forall msg, h_type (m_header msg) = 20%N -> 72 <= length (data_of msg) ->
    (make_archival_record msg (Some ex') = Ret None <->
     hdr_dst (data_of msg) = at_ 12 4 x ++ repeat x00 12 \/ make_archival_record msg (Some ex) = Ret None).
Proof. exact add_dst_mapped. Qed.
Print Assumptions C08_mapped_destination.

(** Everything else is refused: the text is that of an address or there is an
    error. *)
Theorem C08_accepts_exactly : forall ex s, add_dst_ip ex s = Fail ErrInvalidIP <-> ~ exists x, ip_text s x.
Proof. exact add_dst_accepts. Qed.
Print Assumptions C08_accepts_exactly.

Theorem C08_not_an_address : forall ex s,
  (forall b, In b s -> b <> x2e /\ b <> x3a) -> add_dst_ip ex s = Fail ErrInvalidIP.
Proof. exact add_dst_invalid. Qed.
Print Assumptions C08_not_an_address.

(** Two ellipses, a leading zero and a number that is too big are refused. *)
Example refused : Forall (fun s => add_dst_ip no_exclude s = Fail ErrInvalidIP)
  [str "1::2::3"; str "01.2.3.4"; str "1.2.3.256"; str "::10000"; str "1:2:3:4:5:6:7"; str "1:2:3:4:5:6:7:8:9"; str ":::"; []]%string.
Proof. repeat (constructor; [vm_compute; reflexivity|]). constructor. Qed.

(** An IPv4 destination reached over a dual-stack (AF_INET6, ::ffff:a.b.c.d)
    socket is not excluded. *)
Theorem C08_mapped_socket_refuted : exists ex' data r,
  add_dst_ip no_exclude (dotted 192 0 2 7) = Ret ex' /\ hdr_family data = 10%N /\
  hdr_dst data = v6 [] [255; 255; 192; 0; 2; 7]%N /\
  make_archival_record (sample_msg data) (Some ex') = Ret (Some r).
Proof.
  eexists _, (sample_hdr 10 1 80 81 (v6 [] [255; 255; 10; 0; 0; 1]) (v6 [] [255; 255; 192; 0; 2; 7]) 5)%N, _.
  split; [vm_compute; reflexivity|]. split; [reflexivity|]. split; [reflexivity|]. vm_compute. reflexivity.
Qed.
Print Assumptions C08_mapped_socket_refuted.

Lemma g_fd0a : hex_group (str "fd0a"%string) 64778.
Proof.
  split; [discriminate|]. split; [|reflexivity].
  change (hex_value (((([] ++ [x66]) ++ [x64]) ++ [x30]) ++ [x61]) (16 * (16 * (16 * (16 * 0 + 15) + 13) + 0) + 10)).
  repeat constructor; unfold hex_digit_value; cbn; intuition discriminate.
Qed.
Example v6_text_ex : ipv6_text (str "fd0a::"%string) (v6 [253; 10]%N []).
Proof.
  apply (v6_compressed (str "fd0a"%string) [xfd; x0a] 1 [] [] 0); [|left; auto|auto with arith].
  right. apply (gr_one _ _ _ g_fd0a).
Qed.
Example v6_text_excludes : exists ex', add_dst_ip no_exclude (str "fd0a::"%string) = Ret ex' /\
  make_archival_record (sample_msg (sample_hdr 10 1 80 81 (v6 [1] [1]) (v6 [253; 10] []) 5)%N) (Some ex') = Ret None.
Proof. eexists. split; vm_compute; reflexivity. Qed.
Example v4_text_excludes : exists ex', add_dst_ip no_exclude (str "192.0.2.7"%string) = Ret ex' /\
  make_archival_record (sample_msg hdr_a) (Some ex') = Ret None.
Proof. eexists. split; vm_compute; reflexivity. Qed.
