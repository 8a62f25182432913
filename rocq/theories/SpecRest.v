(** Executions while nothing arrives: between two polls, or after the channel of
    polls has been closed. *)
From stdpp Require Import gmap.
From Verif Require Import GoBase Netlink Cache Saver System.

(** Two jobs wait for the outside: receiving a block, and noticing that the
    channel has been closed. *)
Definition outside (j : job) : bool := match j with JBlock _ | JShutdown => true | _ => false end.
(** What is still to come from outside. *)
Definition to_come (y : sys) : list job := List.filter outside (y_jobs y).
(** The polls received. *)
Definition received (bs : list block) (y : sys) : list block :=
  firstn (length bs - length (List.filter (fun j => match j with JBlock _ => true | _ => false end) (y_jobs y))) bs.
Section Rest.
Variables (w : world) (cf : config) (cap : nat) (anon : bytes -> bytes) (line : archival -> bytes) (hline : metadata -> bytes).
(** A step for which nothing has to arrive. *)
Definition alone (y y' : sys) : Prop := step w cf cap anon line hline y y' /\ to_come y' = to_come y.
Definition at_rest (y : sys) : Prop := forall y', ~ alone y y'.
End Rest.
