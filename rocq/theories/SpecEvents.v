(** What the clients of the event server and its callers can rely on, in terms
    of what can be seen of it. *)
From stdpp Require Import base list.
From Coq Require Import NArith ZArith.
From Verif Require Import GoBase EventServer.

(** The events submitted, in order. *)
Definition submitted (l : list obs) : list flow_event := omap (fun o => match o with OSubmit e => Some e | _ => None end) l.
(** The lines broadcast, in order. *)
Definition broadcasts (l : list obs) : list bytes := omap (fun o => match o with OBroadcast b => Some b | _ => None end) l.
(** The writes to one client: the lines, and the bytes that arrive. *)
Definition attempts (c : nat) (l : list obs) : list bytes :=
  omap (fun o => match o with OWrite c' b _ => if decide (c' = c) then Some b else None | _ => None end) l.
Definition received (c : nat) (l : list obs) : bytes :=
  concat (omap (fun o => match o with
                         | OWrite c' b f => if decide (c' = c) then Some (match f with None => b | Some n => firstn n b end) else None
                         | _ => None end) l).

(** A write to this client has failed. *)
Definition has_failed (c : nat) (l : list obs) : Prop := exists line n, OWrite c line (Some n) ∈ l.

(** Once a write to a client has failed nothing more arrives at it. *)
Definition steady (c : nat) (l : list obs) : Prop :=
  forall l1 line n l2, l = l1 ++ OWrite c line (Some n) :: l2 -> received c l2 = [].

(** The broadcast of a line is going on and has not come to this client. *)
Definition waiting (s : state) (c : nat) : option bytes :=
  match np s with NSend line todo => if decide (c ∈ todo) then Some line else None | _ => None end.

(** How often something is seen. *)
Definition times (P : obs -> bool) (l : list obs) : nat := length (List.filter P l).
Definition is_close_listener (o : obs) : bool := match o with OCloseListener => true | _ => false end.
Definition is_close_chan (o : obs) : bool := match o with OCloseChan => true | _ => false end.
