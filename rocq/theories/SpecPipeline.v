(** What snapshot.LoadAll should give for a file: the kernel's messages. *)
From Coq Require Import Strings.String.
From stdpp Require Import gmap.
From Coq Require Import NArith ZArith.
From Verif Require Import GoBase Inetdiag Netlink SpecNetlink SpecCompare Snapshot SpecSnapshot Cache Saver SpecSaver SpecSystem.
Local Open Scope list_scope.

(** Message m was received in a block of bs, with the time t of its dump. *)
Definition received (bs : list block) (t : Z) (m : nlmsg) : Prop :=
  exists b, b ∈ bs /\ (Some m ∈ V4Messages b /\ t = V4Time b \/ Some m ∈ V6Messages b /\ t = V6Time b).

(** Snapshot s shows message m of time t: the header with anonymized addresses,
    and of every attribute type the last value in the message, decoded as the
    kernel's structures say.  (The zero time becomes 2009-05-29 23:59:59.) *)
Definition shows (anon : bytes -> bytes) (t : Z) (m : nlmsg) (s : snapshot) : Prop :=
  exists h l r, hidden_header anon (firstn 72 (vis (m_data m))) = Some h /\ wire_area l (skipn 72 (vis (m_data m))) /\
    ar_time r = (if Z.eqb t (-62135596800000000000) then 1243641599000000000%Z else t) /\ ar_raw r = Some h /\
    (forall k v, k <= 38 -> (attr r k = Some v <-> last_of (N.of_nat k) l v)) /\
    decoded r s /\
    (forall i, N.testbit (sn_observed s) i = true <-> (i < 32)%N /\ exists v, last_of (i + 1) l v) /\
    (forall i, N.testbit (sn_notparsed s) i = true <-> (i < 32)%N /\ exists v, last_of (i + 1) l v /\ poorly_parsed (S (N.to_nat i)) v).

(** The last congestion-control attribute of the message, if there is one, is not empty. *)
Definition named_congestion (m : nlmsg) : Prop := forall l, wire_area l (skipn 72 (vis (m_data m))) -> ~ last_of 4 l [].

(** Records of the families that can be anonymized: IPv4 and IPv6. *)
Definition known_family (q : archival) : bool := (N.eqb (hdr_family (header q)) 2 || N.eqb (hdr_family (header q)) 10)%bool.

(** Record q was made of message m, received at time t. *)
Definition made_of (cf : config) (bs : list block) (q : archival) (t : Z) (m : nlmsg) : Prop :=
  received bs t m /\ exists ar, make_archival_record m (excl cf) = Ret (Some ar) /\ q = mkar t (ar_raw ar) (ar_attrs ar) (ar_meta ar).
