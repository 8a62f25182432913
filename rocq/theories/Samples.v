(** Concrete inputs used by the examples beside the theorems. *)
From Coq Require Import List NArith ZArith.
From Verif Require Import GoBase Netlink SpecNetlink.
Import ListNotations.

(** A 72-byte inet_diag_msg. *)
Definition sample_hdr (family state : N) (sport dport : N) (src dst : bytes) (cookie : N) : bytes :=
  le_enc 1 family ++ le_enc 1 state ++ [x00; x00] ++ rev (le_enc 2 sport) ++ rev (le_enc 2 dport)
  ++ src ++ dst ++ repeat x00 4 ++ le_enc 8 cookie ++ repeat x00 20.
Definition v4 (a b c d : N) : bytes := [byte_of a; byte_of b; byte_of c; byte_of d] ++ repeat x00 12.
Definition v6 (hi lo : list N) : bytes := map byte_of hi ++ repeat x00 (16 - length hi - length lo) ++ map byte_of lo.
Definition sample_msg (data : bytes) : nlmsg := mkmsg (mkhdr (16 + N.of_nat (length data)) 20 2 1 0) (mkslice data []).
Definition hdr_a : bytes := sample_hdr 2 1 443 5000 (v4 10 0 0 1) (v4 192 0 2 7) 12345.
(** a TCP_INFO of 232 bytes with the given counters *)
Definition sample_info (sent recv : N) : bytes :=
  repeat x01 128 ++ le_enc 8 recv ++ repeat x00 64 ++ le_enc 8 sent ++ repeat x00 24.
(** an attribute as on the wire (values of a multiple of four bytes) *)
Definition sample_attr (t : N) (v : bytes) : bytes := le_enc 2 (4 + N.of_nat (length v)) ++ le_enc 2 t ++ v.
(** a dump message of connection k with the given counters, and one without
    TCP_INFO *)
Definition conn_msg (k sent recv : N) : nlmsg :=
  sample_msg (sample_hdr 2 1 443 5000 (v4 10 0 0 1) (v4 192 0 2 7) k ++ sample_attr 2 (sample_info sent recv)).
Definition bare_msg (k : N) : nlmsg := sample_msg (sample_hdr 2 4 443 5000 (v4 10 0 0 1) (v4 192 0 2 7) k).
