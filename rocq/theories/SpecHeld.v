(** What the saver has opened and not yet closed, as read off its log. *)
From stdpp Require Import gmap.
From Coq Require Import NArith ZArith.
From Verif Require Import GoBase Netlink Saver SpecSaver.

(** The files created, and those for which a close task has been queued, in order. *)
Definition creations (l : list action) : list nat := omap (fun a => match a with ACreate wr _ => Some wr | _ => None end) l.
Definition closings (l : list action) : list nat := omap (fun a => match a with ASend _ None wr => Some wr | _ => None end) l.
(** The files not yet to be closed. *)
Definition held (l : list action) : list nat := filter (fun wr => wr ∉ closings l) (creations l).
(** The header of the file names connection k. *)
Definition file_of (prefix : bytes) (k : N) (wr : nat) (l : list action) : Prop :=
  exists md, AHeader wr md ∈ l /\ md_uuid md = from_cookie prefix k.
(** The connections of some records that have a cookie, each once. *)
Definition connections (l : list archival) : list N := remove_dups (filter (fun k => k <> 0%N) (cookies_of l)).
