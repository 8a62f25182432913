(** Specifications for the textual configuration (source ports, destination
    addresses): what a decimal number and what an IP address in text is. *)
From Coq Require Import List NArith ZArith Bool.
From Verif Require Import GoBase.
Import ListNotations.

Definition decimal_digit (b : byte) : Prop := (48 <= bval b <= 57)%N.
Definition decimal_value (l : bytes) : N := fold_left (fun a d => 10 * a + (bval d - 48))%N l 0%N.

(** An optional sign and at least one decimal digit, denoting z. *)
Definition signed_decimal (s : bytes) (z : Z) : Prop :=
  exists sgn ds, s = sgn ++ ds /\ ds <> [] /\ Forall decimal_digit ds /\
    (((sgn = [] \/ sgn = [x2b]) /\ z = Z.of_N (decimal_value ds))
     \/ (sgn = [x2d] /\ z = (- Z.of_N (decimal_value ds))%Z)).

(** a.b.c.d *)
Definition dotted (a b c d : N) : bytes :=
  dec a ++ [x2e] ++ dec b ++ [x2e] ++ dec c ++ [x2e] ++ dec d.

(** A group of hexadecimal digits, upper or lower case, for a 16-bit number.
    (More than four digits, with leading zeros, are accepted.) *)
Definition hex_digit_value (b : byte) (v : N) : Prop :=
  ((48 <= bval b <= 57) /\ v = bval b - 48 \/ (97 <= bval b <= 102) /\ v = bval b - 87
   \/ (65 <= bval b <= 70) /\ v = bval b - 55)%N.
Inductive hex_value : bytes -> N -> Prop :=
| hv_nil : hex_value [] 0
| hv_snoc s b v d : hex_value s v -> hex_digit_value b d -> hex_value (s ++ [b]) (16 * v + d).
Definition hex_group (s : bytes) (v : N) : Prop := s <> [] /\ hex_value s v /\ (v < 65536)%N.

(** Groups separated by ':' and the bytes they denote (two per group); if [v4]
    the last two may be written as a.b.c.d. *)
Inductive groups (v4 : bool) : bytes -> bytes -> nat -> Prop :=
| gr_one s v : hex_group s v -> groups v4 s [byte_of (v / 256); byte_of v] 1
| gr_dotted a b c d : v4 = true -> (a < 256 /\ b < 256 /\ c < 256 /\ d < 256)%N ->
    groups v4 (dotted a b c d) [byte_of a; byte_of b; byte_of c; byte_of d] 2
| gr_cons s v t b n : hex_group s v -> groups v4 t b n ->
    groups v4 (s ++ x3a :: t) (byte_of (v / 256) :: byte_of v :: b) (S n).

Definition opt_groups (v4 : bool) (t b : bytes) (n : nat) : Prop := (t = [] /\ b = [] /\ n = 0) \/ groups v4 t b n.

(** RFC 4291 text: eight groups, or "::" standing for one or more zero groups. *)
Inductive ipv6_text : bytes -> bytes -> Prop :=
| v6_full t b : groups true t b 8 -> ipv6_text t b
| v6_compressed t1 b1 n1 t2 b2 n2 :
    opt_groups false t1 b1 n1 -> opt_groups true t2 b2 n2 -> n1 + n2 <= 7 ->
    ipv6_text (t1 ++ [x3a; x3a] ++ t2) (b1 ++ repeat x00 (16 - 2 * (n1 + n2)) ++ b2).

(** The text of an address; x is its 16-byte form. *)
Definition ip_text (t x : bytes) : Prop :=
  (exists a b c d, (a < 256 /\ b < 256 /\ c < 256 /\ d < 256)%N /\ t = dotted a b c d /\
     x = repeat x00 10 ++ [xff; xff; byte_of a; byte_of b; byte_of c; byte_of d])
  \/ ipv6_text t x.
