(** Specification of csvtool: numerals, and what a file says. *)
From Coq Require Import List NArith ZArith.
From Verif Require Import GoBase Netlink SpecNetlink SpecConfig SpecAddrText Snapshot SpecSnapshot SpecReader Archive.
Import ListNotations.

(** Decimal digits of value v, without leading zeros *)
Definition numeral (t : bytes) (v : N) : Prop :=
  t <> [] /\ Forall decimal_digit t /\ decimal_value t = v /\ (hd x30 t = x30 -> t = [x30]).
(** Upper-case hexadecimal digits of value v, without leading zeros *)
Definition hex_numeral (t : bytes) (v : N) : Prop :=
  t <> [] /\ hex_value t v /\ Forall (fun c => (bval c < 97)%N) t /\ (hd x30 t = x30 -> t = [x30]).
(** The six cells for the socket of a raw header *)
Definition sock_cells (raw : bytes) (cells : list bytes) : Prop :=
  exists sp dp src dst nif ck, cells = [sp; dp; src; dst; nif; ck] /\
    numeral sp (hdr_sport raw) /\ numeral dp (hdr_dport raw) /\ address_text (hdr_src raw) src /\ address_text (hdr_dst raw) dst /\
    numeral nif (hdr_if raw) /\ hex_numeral ck (hdr_cookie raw).

(** The text consists of lines that each hold a record which decodes, to these
    snapshots. *)
Definition says (text : bytes) (ss : list snapshot) : Prop :=
  Forall2 (fun l s => exists r, line_record unmarshal l = Ret r /\ decode (timed r) = Ret (ar_meta r, s)) (lines text) ss.
