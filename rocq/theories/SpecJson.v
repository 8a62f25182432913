(** Specification of texts: UTF-8 as the encoding of Unicode scalar values
    (RFC 3629), and JSON trees that can be written. *)
From Coq Require Import List NArith ZArith Bool.
From Verif Require Import GoBase.
Import ListNotations.
Local Open Scope N_scope.
Local Open Scope list_scope.

Definition scalar (r : N) : Prop := r < 55296 \/ (57343 < r /\ r < 1114112).
Definition utf8_of (r : N) : bytes :=
  if r <? 128 then [byte_of r]
  else if r <? 2048 then [byte_of (192 + r / 64); byte_of (128 + r mod 64)]
  else if r <? 65536 then [byte_of (224 + r / 4096); byte_of (128 + r / 64 mod 64); byte_of (128 + r mod 64)]
  else [byte_of (240 + r / 262144); byte_of (128 + r / 4096 mod 64); byte_of (128 + r / 64 mod 64); byte_of (128 + r mod 64)].
(** A byte string that is the UTF-8 encoding of some text. *)
Definition utf8 (s : bytes) : Prop := exists rs, Forall scalar rs /\ s = concat (map utf8_of rs).
