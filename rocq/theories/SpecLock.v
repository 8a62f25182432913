(** What the mutex and the wait group of the event server are there for. *)
From stdpp Require Import gmap.
From Coq Require Import NArith ZArith.
From Verif Require Import GoBase EventName EventServer EventLock.

(** The next thing goroutine g does is to read or write the map of clients. *)
Definition touches (g : who) (f : fine) : Prop :=
  match g with
  | Notify => match x_n f with FIter _ | FSend _ _ => True | _ => False end
  | Serve => match x_s f with GStore _ => True | _ => False end
  | Remover i => match x_rem f !! i with Some (_, RLook) | Some (_, RDelete) => True | _ => False end
  end.
(** Goroutine g waits for the mutex. *)
Definition wants (g : who) (f : fine) : Prop :=
  match g with
  | Notify => match x_n f with FLock _ => True | _ => False end
  | Serve => match x_s f with GLock _ => True | _ => False end
  | Remover i => match x_rem f !! i with Some (_, RLock) => True | _ => False end
  end.
(** What can be seen of a server, and what its goroutines share. *)
Record outer := mkouter { u_cancelled : bool; u_buf : list flow_event; u_closed : bool; u_lclosed : bool; u_clients : gset nat; u_crashed : bool; u_log : list obs }.
Definition outer_of (s : state) : outer := mkouter (cancelled s) (buf s) (closed s) (lclosed s) (clients s) (crashed s) (log s).
Definition outer_fine (f : fine) : outer := mkouter (x_cancelled f) (x_buf f) (x_closed f) (x_lclosed f) (x_clients f) (x_crashed f) (x_log f).
(** All goroutines of the server wait for something from outside, or have
    returned: an event, a connection, the cancellation. *)
Definition waiting (f : fine) : Prop :=
  (x_n f = FEnd \/ (x_n f = FRecv /\ x_buf f = [] /\ x_closed f = false)) /\
  (x_s f = GEnd \/ (x_s f = GAccept /\ x_lclosed f = false)) /\
  (x_c f = KEnd \/ (x_c f = KWait /\ x_cancelled f = false)) /\
  Forall (fun r => snd r = REnd) (x_rem f) /\ x_closers f = [].
(** All goroutines of the server have returned. *)
Definition returned (f : fine) : Prop :=
  x_n f = FEnd /\ x_s f = GEnd /\ x_c f = KEnd /\ Forall (fun r => snd r = REnd) (x_rem f) /\ x_closers f = [].
(** A step of a goroutine of the server, as against callers, clients and the owner
    of the context. *)
Definition own marshal (f f' : fine) : Prop := (exists g, goes marshal g f f') \/ f_cleanup f f' \/ f_closer f f'.
(** Executions, with the number of steps of the server. *)
Inductive fine_runs marshal : nat -> fine -> fine -> Prop :=
| fruns_0 f : fine_runs marshal 0 f f
| fruns_own n f f' f'' : fine_runs marshal n f f' -> x_crashed f' = false -> own marshal f' f'' -> fine_runs marshal (S n) f f''
| fruns_out n f f' f'' : fine_runs marshal n f f' -> x_crashed f' = false -> f_outside f' f'' -> fine_runs marshal n f f''.
(** Executions in which g holds the mutex before every step, with the number of
    steps that g itself makes. *)
Inductive holds marshal (g : who) : nat -> fine -> fine -> Prop :=
| holds_0 f : holds marshal g 0 f f
| holds_own n f f' f'' : holds marshal g n f f' -> x_lock f' = Some g -> x_crashed f' = false -> goes marshal g f' f'' -> holds marshal g (S n) f f''
| holds_other n f f' f'' : holds marshal g n f f' -> x_lock f' = Some g -> fine_step marshal f' f'' -> ~ goes marshal g f' f'' -> holds marshal g n f f''.
(** What is left to do after the end: clients that failed are taken off the map and
    hung up on. *)
Definition tidies (o : obs) : Prop := match o with ORemove _ | OHangup _ => True | _ => False end.
