(** What may change when a counter of a record is set. *)
From Coq Require Import List NArith.
From Verif Require Import GoBase Netlink SpecNetlink.
Import ListNotations.

(** r is pm, but for the eight bytes at this offset of TCP_INFO (slot 2), which hold x
    (little-endian). *)
Definition changed_only (at_offset : nat) (x : N) (pm r : archival) : Prop :=
  ar_time r = ar_time pm /\ ar_raw r = ar_raw pm /\ ar_meta r = ar_meta pm /\
  length (ar_attrs r) = length (ar_attrs pm) /\
  (forall t, t <> 2 -> nth t (ar_attrs r) None = nth t (ar_attrs pm) None) /\
  exists s s', nth 2 (ar_attrs pm) None = Some s /\ nth 2 (ar_attrs r) None = Some s' /\
    spare s' = spare s /\ length (vis s') = length (vis s) /\
    le (at_ at_offset 8 (vis s')) = x /\
    forall k d, k < at_offset \/ at_offset + 8 <= k -> nth k (vis s') d = nth k (vis s) d.
