(** What a reader of a finished file should get. *)
From stdpp Require Import gmap.
From Coq Require Import NArith ZArith.
From Verif Require Import GoBase Netlink SpecArchive Cache Saver SpecSaver System SpecSystem.

(** All the times of a history: those of its blocks. *)
Definition block_times (bs : list block) : list Z := concat (map (fun b => [V4Time b; V6Time b]) bs).
(** The record that only holds metadata, then the records of the file, with the
    addresses anonymized; those of other families than IPv4 and IPv6 are left out. *)
Definition recovered (anon : bytes -> bytes) (md : metadata) (recs : list archival) : list archival :=
  mkar zero_time None [] (Some md) :: map read_back (omap (hidden anon) recs).
(** The log of the run without marshallers (C28). *)
Definition log_of (w : world) (cf : config) (bs : list block) : list action := s_log (message_saver_loop w cf bs).

(** What reading the beginning d of a file gives, when [line] writes the records
    rs of the file: all the records whose lines are in d; a line cut between its
    last byte and its newline still counts; any other cut line is an error. *)
Definition read_part (line : archival -> bytes) (rs : list archival) (d : bytes) (got : list archival) (e : option goerr) : Prop :=
  exists whole rest p, rs = whole ++ rest /\ d = concat (map (fun r => line r ++ [x0a]) whole) ++ p /\
    (p = [] /\ got = map read_back whole /\ e = None \/
     exists r rest', rest = r :: rest' /\
       (p = line r /\ got = map read_back (whole ++ [r]) /\ e = None \/
        p <> [] /\ (exists q, q <> [] /\ line r = p ++ q) /\ got = map read_back whole /\ e = Some ErrJSON)).

(** Every message of a block has at most n bytes of data. *)
Definition messages_up_to (n : N) (b : block) : Prop :=
  Forall (fun m => forall msg, m = Some msg -> (N.of_nat (length (vis (m_data msg))) <= n)%N) (V4Messages b ++ V6Messages b).
