(** Specifications for the netlink parsing properties, written without any of
    the model's helper functions: the kernel's wire format as literal offsets,
    the address classes of the RFCs as literal prefixes. *)
From Coq Require Import List NArith ZArith Bool.
From Verif Require Import GoBase.
Import ListNotations.

(** ** The rtattr wire format (include/uapi/linux/rtnetlink.h) *)

(** One attribute: 16-bit length (header included), 16-bit type, value, padding. *)
Definition wire_attr (ty : N) (v pad : bytes) : bytes :=
  le_enc 2 (4 + N.of_nat (length v)) ++ le_enc 2 ty ++ v ++ pad.

Definition attr_ok (ty : N) (v : bytes) : Prop :=
  (ty < 65536)%N /\ (4 + N.of_nat (length v) < 65536)%N.

(** Padding completes the value to a multiple of 4 with at most 3 bytes. *)
Definition pad_ok (v pad : bytes) : Prop :=
  length pad < 4 /\ Nat.modulo (length v + length pad) 4 = 0.

(** [wire_list l b]: b is the back-to-back encoding of l, each padded. *)
Inductive wire_list : list (N * bytes) -> bytes -> Prop :=
| wl_nil : wire_list [] []
| wl_cons ty v pad l b :
    attr_ok ty v -> pad_ok v pad -> wire_list l b ->
    wire_list ((ty, v) :: l) (wire_attr ty v pad ++ b).

(** A complete attribute area: encoding followed by fewer than 4 bytes. *)
Definition wire_area (l : list (N * bytes)) (b : bytes) : Prop :=
  exists p tail, b = p ++ tail /\ wire_list l p /\ length tail < 4.

(** A well-formed prefix, then a header whose length field is impossible. *)
Definition wire_bad_length (b : bytes) : Prop :=
  exists l p l0 l1 t0 t1 rest,
    b = p ++ l0 :: l1 :: t0 :: t1 :: rest /\ wire_list l p /\
    ((bval l0 + 256 * bval l1 < 4)%N \/
     (N.of_nat (4 + length rest) < bval l0 + 256 * bval l1)%N).

(** A well-formed prefix, then a last attribute that is all there except for
    (some of) its alignment padding. *)
Definition wire_unpadded (b : bytes) : Prop :=
  exists l p ty v pad pad',
    b = p ++ wire_attr ty v pad /\ wire_list l p /\ attr_ok ty v /\
    pad_ok v (pad ++ pad') /\ pad' <> [].

(** ** The 72-byte inet_diag_msg (include/uapi/linux/inet_diag.h) *)
Definition at_ (o n : nat) (raw : bytes) : bytes := firstn n (skipn o raw).
Definition hdr_family (raw : bytes) : N := le (at_ 0 1 raw).
Definition hdr_state (raw : bytes) : N := le (at_ 1 1 raw).
Definition hdr_sport (raw : bytes) : N := be (at_ 4 2 raw).
Definition hdr_dport (raw : bytes) : N := be (at_ 6 2 raw).
Definition hdr_src (raw : bytes) : bytes := at_ 8 16 raw.
Definition hdr_dst (raw : bytes) : bytes := at_ 24 16 raw.
Definition hdr_if (raw : bytes) : N := be (at_ 40 4 raw).
Definition hdr_cookie (raw : bytes) : N := le (at_ 44 8 raw).
Definition hdr_expires (raw : bytes) : N := le (at_ 52 4 raw).
Definition hdr_rqueue (raw : bytes) : N := le (at_ 56 4 raw).
Definition hdr_wqueue (raw : bytes) : N := le (at_ 60 4 raw).
Definition hdr_uid (raw : bytes) : N := le (at_ 64 4 raw).
Definition hdr_inode (raw : bytes) : N := le (at_ 68 4 raw).

(** The value of the last attribute of type [t] in a list. *)
Inductive last_of (t : N) : list (N * bytes) -> bytes -> Prop :=
| last_here v l : (forall w, ~ In (t, w) l) -> last_of t ((t, v) :: l) v
| last_later x l v : last_of t l v -> last_of t (x :: l) v.

(** ** Address classes *)

(** IPv4 (RFC 1122, 3927, 1112): the four bytes of an address. *)
Definition v4_local (a b c d : N) : Prop :=
  a = 127%N                                       (* 127.0.0.0/8 *)
  \/ (a = 169%N /\ b = 254%N)                     (* 169.254.0.0/16 *)
  \/ (224 <= a /\ a <= 239)%N                     (* 224.0.0.0/4 *)
  \/ (a = 0 /\ b = 0 /\ c = 0 /\ d = 0)%N.        (* 0.0.0.0 *)

Definition nthb (i : nat) (l : bytes) : N := bval (nth i l x00).

(** ::ffff:a.b.c.d *)
Definition v4_mapped (x : bytes) : Prop :=
  (forall i, i < 10 -> nthb i x = 0%N) /\ nthb 10 x = 255%N /\ nthb 11 x = 255%N.

(** IPv6 (RFC 4291), IPv4-mapped addresses standing for their IPv4 address. *)
Definition v6_local (x : bytes) : Prop :=
  (v4_mapped x /\ v4_local (nthb 12 x) (nthb 13 x) (nthb 14 x) (nthb 15 x))
  \/ ((forall i, i < 15 -> nthb i x = 0%N) /\ (nthb 15 x = 0 \/ nthb 15 x = 1)%N)  (* ::, ::1 *)
  \/ (nthb 0 x = 254 /\ 128 <= nthb 1 x /\ nthb 1 x <= 191)%N                 (* fe80::/10 *)
  \/ nthb 0 x = 255%N.                                                        (* ff00::/8 *)

(** How the code reads a 16-byte socket address when testing for locality:
    the kernel stores an IPv4 address in the first four bytes and zeroes the
    rest, so "last twelve bytes zero" is taken to mean IPv4. *)
Definition tail_zero (x : bytes) : Prop := forall i, 4 <= i < 16 -> nthb i x = 0%N.
Definition sock_local (x : bytes) : Prop :=
  (tail_zero x /\ v4_local (nthb 0 x) (nthb 1 x) (nthb 2 x) (nthb 3 x))
  \/ (~ tail_zero x /\ v6_local x).

(** Who should be excluded: by source port, by locality of either end, or by
    destination. *)
Definition should_exclude (local : Prop) (ports : N -> Prop) (dsts : bytes -> Prop) (raw : bytes) : Prop :=
  ports (hdr_sport raw)
  \/ (local /\ (sock_local (hdr_src raw) \/ sock_local (hdr_dst raw)))
  \/ dsts (hdr_dst raw).

(** The largest attribute type of a list (0 if there is none). *)
Definition largest_type (l : list (N * bytes)) (m : N) : Prop :=
  (forall t v, In (t, v) l -> (t <= m)%N) /\ (m = 0%N \/ exists v, In (m, v) l).
