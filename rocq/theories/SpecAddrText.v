(** Specification of the text of addresses: RFC 5952 for IPv6, dotted decimal
    for IPv4. *)
From Coq Require Import List NArith Bool Arith.
From Verif Require Import GoBase SpecConfig.
Import ListNotations.
Local Open Scope list_scope.

(** One to four lower-case digits with value v and without leading zeros. *)
Definition group_text (v : N) (t : bytes) : Prop :=
  hex_group t v /\ length t <= 4 /\ Forall (fun c => (bval c < 65 \/ 70 < bval c)%N) t /\ (hd x30 t = x30 -> t = [x30]).
(** Groups with a ':' between them. *)
Inductive groups_text : list N -> bytes -> Prop :=
| gt_none : groups_text [] []
| gt_one v t : group_text v t -> groups_text [v] t
| gt_more v t v' vs u : group_text v t -> groups_text (v' :: vs) u -> groups_text (v :: v' :: vs) (t ++ x3a :: u).
(** "::" stands for the longest run of at least two zero groups, the first one
    if there are several. *)
Definition canonical (vs : list N) (t : bytes) : Prop :=
  ((forall a b, vs <> a ++ 0%N :: 0%N :: b) /\ groups_text vs t)
  \/ exists a k b ta tb, vs = a ++ repeat 0%N k ++ b /\ 2 <= k
       /\ (forall a' k' b', vs = a' ++ repeat 0%N k' ++ b' -> k' <= k /\ (k' = k -> length a <= length a'))
       /\ groups_text a ta /\ groups_text b tb /\ t = ta ++ [x3a; x3a] ++ tb.

(** Two bytes per group, the higher one first. *)
Definition bytes_of_groups (vs : list N) : bytes := flat_map (fun v => [byte_of (v / 256); byte_of v]) vs.

(** The 16 bytes of an address in a socket as the kernel fills them in: IPv4 in
    the first four bytes, zeros after it. *)
Definition in_first_four (x : bytes) (a b c d : N) : Prop :=
  x = map byte_of [a; b; c; d] ++ repeat x00 12 /\ (a < 256 /\ b < 256 /\ c < 256 /\ d < 256)%N.
(** An IPv4-mapped IPv6 address. *)
Definition mapped (x : bytes) (a b c d : N) : Prop :=
  x = repeat x00 10 ++ [xff; xff] ++ map byte_of [a; b; c; d] /\ (a < 256 /\ b < 256 /\ c < 256 /\ d < 256)%N.
Definition four_bytes (x : bytes) (a b c d : N) : Prop := in_first_four x a b c d \/ mapped x a b c d.

(** The text of the address of a socket. *)
Definition address_text (x t : bytes) : Prop :=
  (exists a b c d, four_bytes x a b c d /\ t = dotted a b c d)
  \/ ((forall a b c d, ~ four_bytes x a b c d)
      /\ exists vs, length vs = 8 /\ Forall (fun v => (v < 65536)%N) vs /\ x = bytes_of_groups vs /\ canonical vs t).
