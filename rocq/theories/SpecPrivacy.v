(** What is not to be learnt from the files: the addresses beyond what the
    anonymizer leaves of them. *)
From stdpp Require Import gmap.
From Coq Require Import NArith ZArith.
From Verif Require Import GoBase Inetdiag Netlink SpecNetlink SpecCompare RecordFacts Cache Saver SpecSaver SpecSystem.

(** Two messages that differ at most in the address bytes (8 to 39) of the header,
    and there only in what the anonymizer takes away. *)
Definition alike (anon : bytes -> bytes) (m m' : nlmsg) : Prop :=
  m_header m = m_header m' /\ spare (m_data m) = spare (m_data m') /\
  length (data_of m) = length (data_of m') /\ firstn 8 (data_of m) = firstn 8 (data_of m') /\ skipn 40 (data_of m) = skipn 40 (data_of m') /\
  (72 <= length (data_of m) -> hidden_header anon (raw_of m) = hidden_header anon (raw_of m')) /\
  (72 <= length (data_of m) -> hidden_header anon (raw_of m) = None -> raw_of m = raw_of m').
(** ... and that are both excluded or both not. *)
Definition treated_alike (anon : bytes -> bytes) (ex : option exclude_config) (m m' : option nlmsg) : Prop :=
  match m, m' with
  | None, None => True
  | Some m, Some m' => alike anon m m' /\ (make_archival_record m ex = Ret None <-> make_archival_record m' ex = Ret None)
  | _, _ => False
  end.
Definition alike_blocks (anon : bytes -> bytes) (ex : option exclude_config) (b b' : block) : Prop :=
  V4Time b = V4Time b' /\ V6Time b = V6Time b' /\
  Forall2 (treated_alike anon ex) (V4Messages b) (V4Messages b') /\ Forall2 (treated_alike anon ex) (V6Messages b) (V6Messages b').

(** What can be seen of the saver's actions apart from addresses. *)
Definition veiled_id (id : sockid) : sockid := mksockid (sid_sport id) (sid_dport id) [] [] (sid_if id) (sid_cookie id).
Definition veiled_header (anon : bytes -> bytes) (raw : bytes) : bytes :=
  match hidden_header anon raw with Some h => h | None => raw end.
Definition veiled_record (anon : bytes -> bytes) (r : archival) : archival :=
  mkar (ar_time r) (option_map (veiled_header anon) (ar_raw r)) (ar_attrs r) (ar_meta r).
Definition veiled_cell (anon : bytes -> bytes) (c : cell) : cell := mkcell (c_uid c) (veiled_record anon (c_ar c)).
Definition veiled (anon : bytes -> bytes) (a : action) : action :=
  match a with
  | AOpen t k id => AOpen t k (veiled_id id)
  | ASend q (Some c) w => ASend q (Some (veiled_cell anon c)) w
  | a => a
  end.

(** The network of an address in its 4 or 16 bytes: a /24 for IPv4 (also if mapped
    into IPv6), a /64 for IPv6. *)
Inductive same_network : bytes -> bytes -> Prop :=
| sn_v4 net a b : length net = 3 -> same_network (net ++ [a]) (net ++ [b])
| sn_mapped net a b : length net = 15 -> v4_mapped (net ++ [a]) -> same_network (net ++ [a]) (net ++ [b])
| sn_v6 net a b : length net = 8 -> length a = 8 -> length b = 8 -> ~ v4_mapped (net ++ a) -> ~ v4_mapped (net ++ b) ->
    same_network (net ++ a) (net ++ b).
(** Two messages that differ at most in the host parts of the two addresses.  An
    IPv4 address takes the first four bytes of its field. *)
Definition same_but_hosts (m m' : nlmsg) : Prop :=
  m_header m = m_header m' /\ spare (m_data m) = spare (m_data m') /\
  length (data_of m) = length (data_of m') /\ firstn 8 (data_of m) = firstn 8 (data_of m') /\ skipn 40 (data_of m) = skipn 40 (data_of m') /\
  (data_of m = data_of m' \/
   hdr_family (data_of m) = 10%N /\ same_network (at_ 8 16 (data_of m)) (at_ 8 16 (data_of m')) /\ same_network (at_ 24 16 (data_of m)) (at_ 24 16 (data_of m')) \/
   hdr_family (data_of m) = 2%N /\ same_network (at_ 8 4 (data_of m)) (at_ 8 4 (data_of m')) /\ at_ 12 12 (data_of m) = at_ 12 12 (data_of m') /\
     same_network (at_ 24 4 (data_of m)) (at_ 24 4 (data_of m')) /\ at_ 28 12 (data_of m) = at_ 28 12 (data_of m')).
Definition network_only (ex : option exclude_config) (b b' : block) : Prop :=
  let same m m' := match m, m' with
    | None, None => True
    | Some m, Some m' => same_but_hosts m m' /\ (make_archival_record m ex = Ret None <-> make_archival_record m' ex = Ret None)
    | _, _ => False
    end in
  V4Time b = V4Time b' /\ V6Time b = V6Time b' /\ Forall2 same (V4Messages b) (V4Messages b') /\ Forall2 same (V6Messages b) (V6Messages b').
