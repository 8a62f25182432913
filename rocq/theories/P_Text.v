(** Property C49: the addresses of a socket as text. *)
From Coq Require Import Strings.String List NArith ZArith Lia.
From Verif Require Import GoBase GoBaseFacts NetIP Inetdiag SpecNetlink RecordFacts SpecConfig SpecAddrText AddrTextFacts Samples.
Import ListNotations.
Local Open Scope list_scope.

Lemma sock_texts raw m : parse_idm (Some raw) = Ret m ->
  length (hdr_src raw) = 16 /\ length (hdr_dst raw) = 16 /\
  address_text (hdr_src raw) (sid_src (get_sockid (idiag_id m))) /\ address_text (hdr_dst raw) (sid_dst (get_sockid (idiag_id m))).
Proof.
  intros H. apply parse_idm_ret in H. destruct H as (b & E & L & ->). injection E as <-.
  assert (Ls : length (hdr_src raw) = 16) by (unfold hdr_src, at_; rewrite firstn_length, skipn_length; lia).
  assert (Ld : length (hdr_dst raw) = 16) by (unfold hdr_dst, at_; rewrite firstn_length, skipn_length; lia).
  split; [exact Ls|]. split; [exact Ld|]. split; [exact (ip_text (hdr_src raw) Ls)|exact (ip_text (hdr_dst raw) Ld)].
Qed.

(** The texts are the canonical ones. *)
Theorem C49_address_text : forall raw m, parse_idm (Some raw) = Ret m ->
  let s := get_sockid (idiag_id m) in
  address_text (hdr_src raw) (sid_src s) /\ address_text (hdr_dst raw) (sid_dst s).
Proof. intros raw m H. destruct (sock_texts raw m H) as (_ & _ & A). exact A. Qed.
Print Assumptions C49_address_text.

(** net.ParseIP gives the address back: the IPv4 address if there is one in the
    first four bytes or an IPv4-mapped one, the same 16 bytes otherwise. *)
Theorem C49_parse_back : forall raw m, parse_idm (Some raw) = Ret m ->
  let s := get_sockid (idiag_id m) in
  forall x t, (x = hdr_src raw /\ t = sid_src s) \/ (x = hdr_dst raw /\ t = sid_dst s) ->
  (forall a b c d, four_bytes x a b c d -> parse_ip t = Some (repeat x00 10 ++ [xff; xff] ++ map byte_of [a; b; c; d]))
  /\ ((forall a b c d, ~ four_bytes x a b c d) -> parse_ip t = Some x).
Proof.
  intros raw m H s x t K. destruct (sock_texts raw m H) as (Ls & Ld & As & Ad).
  destruct K as [(-> & ->)|(-> & ->)]; [exact (parse_text _ _ Ls As)|exact (parse_text _ _ Ld Ad)].
Qed.
Print Assumptions C49_parse_back.

(** Two sockets have the same text for an address exactly if they have the same
    bytes, or both have the same IPv4 address. *)
Theorem C49_same_text : forall raw raw' m m', parse_idm (Some raw) = Ret m -> parse_idm (Some raw') = Ret m' ->
  (sid_src (get_sockid (idiag_id m)) = sid_src (get_sockid (idiag_id m')) <->
   hdr_src raw = hdr_src raw' \/ exists a b c d, four_bytes (hdr_src raw) a b c d /\ four_bytes (hdr_src raw') a b c d)
  /\ (sid_dst (get_sockid (idiag_id m)) = sid_dst (get_sockid (idiag_id m')) <->
      hdr_dst raw = hdr_dst raw' \/ exists a b c d, four_bytes (hdr_dst raw) a b c d /\ four_bytes (hdr_dst raw') a b c d).
Proof.
  intros raw raw' m m' H H'. destruct (sock_texts raw m H) as (Ls & Ld & As & Ad). destruct (sock_texts raw' m' H') as (Ls' & Ld' & As' & Ad').
  apply parse_idm_ret in H, H'. destruct H as (b & E & _ & ->), H' as (b' & E' & _ & ->). injection E as <-. injection E' as <-.
  split; split.
  - intros Q. rewrite <- Q in As'. exact (same_text _ _ _ Ls Ls' As As').
  - intros [Q|(a & b & c & d & F & F')]; [change (ip_string (ip (hdr_src raw)) = ip_string (ip (hdr_src raw'))); rewrite Q; reflexivity|].
    rewrite (four_text _ _ _ _ _ _ As F), (four_text _ _ _ _ _ _ As' F'). reflexivity.
  - intros Q. rewrite <- Q in Ad'. exact (same_text _ _ _ Ld Ld' Ad Ad').
  - intros [Q|(a & b & c & d & F & F')]; [change (ip_string (ip (hdr_dst raw)) = ip_string (ip (hdr_dst raw'))); rewrite Q; reflexivity|].
    rewrite (four_text _ _ _ _ _ _ Ad F), (four_text _ _ _ _ _ _ Ad' F'). reflexivity.
Qed.
Print Assumptions C49_same_text.

(** Samples. *)
Definition texts (src dst : bytes) : option (bytes * bytes) :=
  match parse_idm (Some (sample_hdr 10 1 80 81 src dst 5)) with
  | Ret m => Some (sid_src (get_sockid (idiag_id m)), sid_dst (get_sockid (idiag_id m)))
  | _ => None
  end.
Example v4_texts : texts (v4 10 0 0 1) (v4 192 0 2 255) = Some (str "10.0.0.1", str "192.0.2.255")%string.
Proof. vm_compute. reflexivity. Qed.
Example v6_texts : texts (v6 [32; 1; 13; 184; 0; 0; 0; 1; 0; 0; 0; 0; 0; 10; 255; 255] [])%N (v6 [32; 1] [1])%N
  = Some (str "2001:db8:0:1::a:ffff", str "2001::1")%string.
Proof. vm_compute. reflexivity. Qed.
Example mapped_text : texts (v6 [] [255; 255; 192; 0; 2; 7])%N (v6 [] [1])%N = Some (str "192.0.2.7", str "::1")%string.
Proof. vm_compute. reflexivity. Qed.
(** Of two runs of the same length the first is shortened; a single zero is not. *)
Example two_runs : texts (v6 [0; 1; 0; 0; 0; 0; 0; 2; 0; 0; 0; 0; 0; 3; 0; 4] [])%N (v6 [0; 1; 0; 2; 0; 3; 0; 4; 0; 5; 0; 6; 0; 7; 0; 0] [])%N
  = Some (str "1::2:0:0:3:4", str "1:2:3:4:5:6:7:0")%string.
Proof. vm_compute. reflexivity. Qed.

(** An IPv6 address whose last twelve bytes are zero gets the text of an IPv4
    address: the text does not always give the address of an IPv6 socket back. *)
Theorem C49_ipv6_refuted : ~ (forall raw m, parse_idm (Some raw) = Ret m -> hdr_family raw = 10%N ->
  parse_ip (sid_dst (get_sockid (idiag_id m))) = Some (hdr_dst raw)).
Proof.
  intros H. specialize (H (sample_hdr 10 1 80 81 (v6 [1] [1]) (v6 [253; 10] []) 5)%N _ eq_refl eq_refl).
  vm_compute in H. discriminate H.
Qed.
Print Assumptions C49_ipv6_refuted.
Example v6_as_v4 : texts (v6 [] [1])%N (v6 [253; 10] [])%N = Some (str "::1", str "253.10.0.0")%string.
Proof. vm_compute. reflexivity. Qed.
