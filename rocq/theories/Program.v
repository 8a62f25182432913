(** Model of main.go as a whole: the main goroutine with the collector, the
    channel to the saver, the saver with its marshallers (System.v) and the event
    server (EventServer.v), as one transition system.  Prometheus, tracing and
    profiling (main.go:92-105) and LogCacheStats are left out. *)
From stdpp Require Import gmap.
From Coq Require Import NArith ZArith.
From Verif Require Import GoBase Inetdiag Netlink Cache Saver System.
From Verif Require EventName EventServer Collector.

(** Where the main goroutine is:
    - [MLoop n]: in collector.Run, at the test of the loop before iteration n
      (collector/collector_linux.go:69);
    - [MSend n b]: the dumps of iteration n gave b, which is to be sent
      (collector/collector_linux.go:51);
    - [MClose], [MWait]: at main.go:150 and 151;
    - [MExit]: main has returned. *)
Inductive mpc := MLoop (n : nat) | MSend (n : nat) (b : block) | MClose | MWait | MExit.

(** The whole process.  [g_chan], [g_closed]: svrChan (main.go:141); [g_sent]:
    everything sent on it so far; [g_ended]: the saver's loop over it has ended
    (saver/saver.go:338).  In [g_sys] only what the saver has received is listed as
    its work.  [EventServer.cancelled (g_srv g)]: ctx is done (main.go:79). *)
Record prog := mkprog {
  g_main : mpc; g_chan : list block; g_closed : bool; g_sent : list block; g_ended : bool;
  g_sys : sys; g_srv : EventServer.state }.

(** Assignments to the parts of the state, [with_main] to [with_srv] (no code of
    their own). (main.go:82-153) *)
Definition with_main p g := mkprog p (g_chan g) (g_closed g) (g_sent g) (g_ended g) (g_sys g) (g_srv g).
(** see [with_main] (main.go:82-153) *)
Definition with_chan c cl st g := mkprog (g_main g) c cl st (g_ended g) (g_sys g) (g_srv g).
(** see [with_main] (main.go:82-153) *)
Definition with_sys e y g := mkprog (g_main g) (g_chan g) (g_closed g) (g_sent g) e y (g_srv g).
(** see [with_main] (main.go:82-153) *)
Definition with_srv s g := mkprog (g_main g) (g_chan g) (g_closed g) (g_sent g) (g_ended g) (g_sys g) s.

(** main.go:141 make(chan netlink.MessageBlock, 2) *)
Definition svr_capacity : nat := 2.

(** The process has neither exited nor crashed. (main.go:82-153) *)
Definition running (g : prog) : Prop :=
  g_main g <> MExit /\ EventServer.crashed (g_srv g) = false /\ alive (g_sys g).

(** saver/saver.go:106-110 and 290-298: the event an action of the saver sends *)
Definition event_sent (prefix : bytes) (a : action) : option EventServer.flow_event :=
  match a with
  | AOpen t k id => Some (EventServer.flow_created t (from_cookie prefix k) id)
  | AClose t k => Some (EventServer.flow_deleted t (from_cookie prefix k))
  | _ => None
  end.

Section Program.
Variables (w : world) (cf : config).
(** As in System.v; the environment of the collector (whose [v_cancelled] is not
    used here: the loop looks at ctx); the flag -reps; whether there is an event
    socket (main.go:108-113, otherwise the NullServer); json.Marshal of an event. *)
Variables (cap : nat) (anon : bytes -> bytes) (line : archival -> bytes) (hline : metadata -> bytes).
Variables (v : Collector.environment) (reps : Z) (on : bool) (marshal : EventServer.flow_event -> option bytes).

(** collector/collector_linux.go:69 (reps == 0 || loops < reps) && (ctx.Err() == nil) *)
Definition goes_on (n : nat) (g : prog) : bool :=
  ((reps =? 0)%Z || (Z.of_nat n <? reps)%Z) && negb (EventServer.cancelled (g_srv g)).

(** The saver waits for the next block: saver/saver.go:338 *)
Definition receiving (g : prog) : Prop :=
  g_ended g = false /\ y_jobs (g_sys g) = [] /\ y_pc (g_sys g) = length (s_log (y_saver (g_sys g))).
(** The saver goes on with this work. (saver/saver.go:331-430) *)
Definition next_job (j : job) (y : sys) : sys := with_saver (y_saver y) [j] y.

(** What a step from y to y' sends to the event server (saver/saver.go:265-279 and 290-298) *)
Definition submits (y y' : sys) : option EventServer.flow_event :=
  if Nat.eqb (y_pc y') (y_pc y) then None
  else if on then match s_log (y_saver y) !! y_pc y with Some a => event_sent (uuid_prefix w) a | None => None end
  else None.

(** One step of main, the saver or the marshallers. (main.go:82-153, saver/saver.go:65-85 and 331-430) *)
Inductive work (g : prog) : prog -> Prop :=
(* collector/collector_linux.go:69 and 25-47: the iteration is due and its dumps return *)
| k_collect n b c : g_main g = MLoop n -> goes_on n g = true -> Collector.collect v n = Ret (b, c) ->
    work g (with_main (MSend n b) g)
(* collector/collector_linux.go:51 *)
| k_send n b : g_main g = MSend n b -> length (g_chan g) < svr_capacity ->
    work g (with_main (MLoop (S n)) (with_chan (g_chan g ++ [b]) (g_closed g) (g_sent g ++ [b]) g))
(* collector/collector_linux.go:69 and 90: Run returns *)
| k_return n : g_main g = MLoop n -> goes_on n g = false -> work g (with_main MClose g)
(* main.go:150-153, then main returns *)
| k_close : g_main g = MClose -> work g (with_main MWait (with_chan (g_chan g) true (g_sent g) g))
| k_exit : g_main g = MWait -> y_wg (g_sys g) = 0 -> work g (with_main MExit g)
(* saver/saver.go:338: a block, or the end *)
| k_block b bs : receiving g -> g_chan g = b :: bs ->
    work g (with_chan bs (g_closed g) (g_sent g) (with_sys false (next_job (JBlock b) (g_sys g)) g))
| k_end : receiving g -> g_chan g = [] -> g_closed g = true ->
    work g (with_sys true (next_job JShutdown (g_sys g)) g)
(* the saver and the marshallers; eventsocket/server.go:170 and 181: an event is
   sent when there is room in the channel, and panics if it is closed *)
| k_sys y : step w cf cap anon line hline (g_sys g) y -> submits (g_sys g) y = None -> work g (with_sys (g_ended g) y g)
| k_event y e : step w cf cap anon line hline (g_sys g) y -> submits (g_sys g) y = Some e ->
    EventServer.closed (g_srv g) = false -> length (EventServer.buf (g_srv g)) < EventServer.capacity ->
    work g (with_srv (EventServer.add_log (EventServer.OSubmit e) (EventServer.set_buf (EventServer.buf (g_srv g) ++ [e]) (g_srv g)))
              (with_sys (g_ended g) y g))
| k_panic y e : step w cf cap anon line hline (g_sys g) y -> submits (g_sys g) y = Some e ->
    EventServer.closed (g_srv g) = true -> work g (with_srv (EventServer.set_crashed (g_srv g)) g).

(** One step of the event server, of its clients, or the end of ctx (which main
    itself brings about only when it returns, main.go:85). *)
Inductive elsewhere (g : prog) : prog -> Prop :=
| e_server s : on = true -> EventServer.server marshal (g_srv g) s -> elsewhere g (with_srv s g)
| e_outside s : EventServer.outside (g_srv g) s ->
    EventServer.buf s = EventServer.buf (g_srv g) -> EventServer.crashed s = false -> elsewhere g (with_srv s g).

(** One step of the process. (main.go:82-153) *)
Inductive moves (g : prog) : prog -> Prop :=
| by_work g' : running g -> work g g' -> moves g g'
| by_others g' : running g -> elsewhere g g' -> moves g g'.

(** main.go:147-151, everything before having been done *)
Definition start : prog :=
  mkprog (MLoop 0) [] false [] false (mksys new_saver [] 0 (replicate (nmarsh cf) (mkmarsh [] false Idle)) ∅ ∅ (S (nmarsh cf)) false) EventServer.init.
(** Every state that some schedule leads to. (main.go:82-153) *)
Definition possible (g : prog) : Prop := rtc moves start g.
End Program.
