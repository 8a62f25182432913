(** Model of cmd/example-eventsocket-client: the handler that hands open events
    to another goroutine without waiting for it, as a state machine. *)
From stdpp Require Import base list relations.
From Coq Require Import ZArith.
From Verif Require Import GoBase Inetdiag EventClient.

(** cmd/example-eventsocket-client/main.go:22-26 type event *)
Record event := mkev { ev_time : Z; ev_uuid : bytes; ev_id : option sockid }.

(** The log lines, cmd/example-eventsocket-client/main.go:40, 44, 50, 58, 60 *)
Inductive xline := XSent (e : event) | XSkipped (e : event) | XClose (t : Z) (u : bytes) | XProcessing (e : event) | XShutdown.

(** ProcessOpenEvents, cmd/example-eventsocket-client/main.go:54-64: about to
    enter the select, waiting in it, having received an event, returned. *)
Inductive xproc := XStart | XReady | XBusy (e : event) | XGone.

(** [x_calls] are the calls of the handler that MustRun has still to make.
    (cmd/example-eventsocket-client/main.go:34-87) *)
Record xst := mkx { x_calls : list call; x_proc : xproc; x_cancelled : bool; x_log : list xline }.

(** cmd/example-eventsocket-client/main.go:76-84 *)
Definition x_init (calls : list call) : xst := mkx calls XStart false [].

(** The steps of the handler, of the goroutine of ProcessOpenEvents and of main (cmd/example-eventsocket-client/main.go:34-87) *)
Inductive xstep (s : xst) : xst -> Prop :=
(* main.go:38-40: the other goroutine waits for an event *)
| x_sent t u id r : x_calls s = COpen t u id :: r -> x_proc s = XReady ->
    xstep s (mkx r (XBusy (mkev t u id)) (x_cancelled s) (x_log s ++ [XSent (mkev t u id)]))
(* main.go:41-44: it does not, or it is being woken up by the cancellation *)
| x_skip t u id r : x_calls s = COpen t u id :: r -> x_proc s <> XReady \/ x_cancelled s = true ->
    xstep s (mkx r (x_proc s) (x_cancelled s) (x_log s ++ [XSkipped (mkev t u id)]))
(* main.go:49-51 *)
| x_close t u r : x_calls s = CClose t u :: r ->
    xstep s (mkx r (x_proc s) (x_cancelled s) (x_log s ++ [XClose t u]))
(* main.go:56: nobody is sending, the goroutine waits *)
| x_wait : x_proc s = XStart -> x_cancelled s = false ->
    xstep s (mkx (x_calls s) XReady (x_cancelled s) (x_log s))
(* main.go:57-58 *)
| x_process e : x_proc s = XBusy e ->
    xstep s (mkx (x_calls s) XStart (x_cancelled s) (x_log s ++ [XProcessing e]))
(* mainCancel() *)
| x_cancel : xstep s (mkx (x_calls s) (x_proc s) true (x_log s))
(* main.go:59-61 *)
| x_done : x_cancelled s = true -> x_proc s = XStart \/ x_proc s = XReady ->
    xstep s (mkx (x_calls s) XGone true (x_log s ++ [XShutdown])).
(** Every state that some schedule leads to. (cmd/example-eventsocket-client/main.go:66-87) *)
Definition xreach (calls : list call) (s : xst) : Prop := rtc xstep (x_init calls) s.
