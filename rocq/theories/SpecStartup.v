(** Specification of the start and of the file of the event socket. *)
From Coq Require Import List Arith Bool.
From Verif Require Import GoBase Startup.

(** The listeners that are open have smaller numbers than the next one. *)
Definition fresh (m : machine) : Prop := forall i, In i (listening m) -> i < next_listener m.
(** A path at which a socket can be made: no directory with something in it. *)
Definition removable (n : node) : bool := match n with Directory false => false | _ => true end.
(** Nobody puts a socket there. *)
Definition honest (h : happening) : bool := match h with Puts (Socket _) => false | _ => true end.
(** Nobody puts a directory with something in it there. *)
Definition mild (h : happening) : bool := match h with Puts n => removable n | _ => true end.
(** Another process ends without touching the path. *)
Definition harmless (i : nat) (h : happening) : bool := match h with Dies j => negb (Nat.eqb j i) | _ => false end.
(** The path a name stands for in a directory. *)
Inductive place (cwd : bytes) : bytes -> bytes -> Prop :=
| place_absolute r : place cwd (Coq.Init.Byte.x2f :: r) (Coq.Init.Byte.x2f :: r)
| place_relative c r : c <> Coq.Init.Byte.x2f -> place cwd (c :: r) (cwd ++ Coq.Init.Byte.x2f :: c :: r).
