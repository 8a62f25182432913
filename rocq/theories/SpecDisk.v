(** What should be on disk. *)
From stdpp Require Import gmap.
From Verif Require Import GoBase Netlink Cache Saver System.

(** The paths of the files that are created, in order. *)
Definition paths (l : list action) : list bytes := omap (fun a => match a with ACreate _ p => Some p | _ => None end) l.
(** The connections that are opened, in order. *)
Definition openings (l : list action) : list N := omap (fun a => match a with AOpen _ k _ => Some k | _ => None end) l.
(** The readings of the clock and the stamps of the polls that opened connections. *)
Definition times (l : list action) : list Z := omap (fun a => match a with ANow t => Some t | AOpen t _ _ => Some t | _ => None end) l.
