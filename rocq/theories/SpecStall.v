(** What a client of the event socket that has stopped reading can do to the
    program. *)
From stdpp Require Import gmap relations.
From Coq Require Import ZArith.
From Verif Require Import GoBase Netlink Saver Program SpecEvents.
From Verif Require EventServer Collector.

(** The client c does not read: no write to it returns, successfully or not, in
    this step. *)
Definition unread (c : nat) (g g' : prog) : Prop :=
  attempts c (EventServer.log (g_srv g')) = attempts c (EventServer.log (g_srv g)).
(** The process makes any number of steps in which the client c does not read. *)
Definition stalled w cf cap anon line hline (v : Collector.environment) (reps : Z) on marshal (c : nat) : prog -> prog -> Prop :=
  rtc (fun g g' => moves w cf cap anon line hline v reps on marshal g g' /\ unread c g g').
(** Somebody is added to or removed from the clients. *)
Definition comes_or_goes (o : EventServer.obs) : bool :=
  match o with EventServer.OAdd _ | EventServer.ORemove _ => true | _ => false end.
