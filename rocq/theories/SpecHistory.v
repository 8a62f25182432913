(** The history of one connection, as it should be found in its files. *)
From stdpp Require Import gmap.
From Coq Require Import NArith ZArith.
From Verif Require Import GoBase Netlink SpecCompare Saver SpecSaver.

(** The records of a run that are to be saved: of every poll those that are new or
    changed, in the order of the polls (to_save is that of C24). *)
Inductive recorded (cf : config) : list block -> list archival -> Prop :=
| recorded_none : recorded cf [] []
| recorded_poll bs b rs e : recorded cf bs rs -> to_save (last_accepted cf bs) [] (accepted cf b) e -> recorded cf (bs ++ [b]) (rs ++ e).

(** The files of connection k, in the order of their creation: those whose metadata
    has its UUID. *)
Definition files_of (prefix : bytes) (k : N) (l : list action) : list (nat * metadata) :=
  omap (fun a => match a with
                 | AHeader wr md => if bytes_eqb (md_uuid md) (from_cookie prefix k) then Some (wr, md) else None
                 | _ => None
                 end) l.
(** Their records, one file after the other *)
Definition in_files (l : list action) (fs : list (nat * metadata)) : list archival :=
  concat (map (fun f => queued (file_actions f.1 l)) fs).
(** The records of one connection *)
Definition of_connection (k : N) (rs : list archival) : list archival := filter (fun r => rec_cookie r = k) rs.
