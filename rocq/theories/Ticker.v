(** Model of the timing of collector.Run (collector/collector_linux.go:58-91): the
    ticker and the loop, as a state machine over explicit steps and the passing of
    time. *)
From stdpp Require Import base list relations.
From Coq Require Import ZArith.
From Verif Require Import GoBase GoTime Netlink Inetdiag Saver Collector.

(** collector/collector_linux.go:64 10 * time.Millisecond *)
Definition interval : Z := 10 * 1000000.

(** Where Run is: before line 67, at the condition of line 69, in
    collectDefaultNamespace (line 70) and up to line 78, waiting at line 84,
    returned. (collector/collector_linux.go:58-91) *)
Inductive place := Starting | Checking | Collecting | Awaiting | Stopped.

(** [t_now] is the time, [t_begin] when time.NewTicker was called.  The ticker:
    [t_next] when it is due next, [t_chan] whether its channel (capacity 1) holds a
    tick.  [t_loops] and [t_last] are the variables loops and lastCollectionTime,
    [t_since] when Run got where it is (when waiting, since when there is a tick).
    [t_starts] and [t_ends] are the times at which collectDefaultNamespace was
    called and the readings of line 78, [t_observed] the observations of
    PollingHistogram. (collector/collector_linux.go:58-91) *)
Record timing := mkt {
  t_now : Z; t_begin : Z; t_next : Z; t_chan : bool; t_place : place; t_loops : nat; t_last : Z; t_since : Z;
  t_starts : list Z; t_ends : list Z; t_observed : list Z }.

(** collector/collector_linux.go:64 time.NewTicker at time b: the first tick is
    due one interval later *)
Definition started (b : Z) : timing := mkt b b (b + interval) false Starting 0 0 b [] [] [].

Section Timing.
(** The environment of Run, the number of repetitions, and how far Run and the
    ticker may lag behind ([lat]) and collecting may take ([dur]); None is without
    limit. *)
Variables (v : environment) (reps : Z) (lat dur : option Z).

(** What the environment and Run are allowed to take at a time (collector/collector_linux.go:58-91) *)
Definition within (limit : option Z) (x : Z) : Prop := match limit with Some d => (x <= d)%Z | None => True end.
(** Time may pass until t: the ticker is not later than allowed, nor is Run.
    (collector/collector_linux.go:58-91) *)
Definition may_pass (s : timing) (t : Z) : Prop :=
  within lat (t - t_next s) /\
  match t_place s with
  | Starting | Checking => within lat (t - t_since s)
  | Collecting => within dur (t - t_since s)
  | Awaiting => t_chan s = true -> within lat (t - t_since s)
  | Stopped => True
  end.

(** Time passes until t; a tick that is due goes to the channel, if there is room (collector/collector_linux.go:58-91) *)
Inductive passes : timing -> timing -> Prop :=
(* time passes *)
| ps_time s t : (t_now s <= t)%Z -> may_pass s t ->
    passes s (mkt t (t_begin s) (t_next s) (t_chan s) (t_place s) (t_loops s) (t_last s) (t_since s) (t_starts s) (t_ends s) (t_observed s))
(* a tick (Go's runtime: the send does not block, a tick is dropped if the channel
   is full; ticks that were missed altogether are left out) *)
| ps_tick s : (t_next s <= t_now s)%Z ->
    passes s (mkt (t_now s) (t_begin s) (t_next s + interval * (1 + (t_now s - t_next s) / interval)) true (t_place s) (t_loops s) (t_last s)
      (match t_place s, t_chan s with Awaiting, false => t_now s | _, _ => t_since s end) (t_starts s) (t_ends s) (t_observed s))
(* line 67 *)
| ps_begin s : t_place s = Starting ->
    passes s (mkt (t_now s) (t_begin s) (t_next s) (t_chan s) Checking (t_loops s) (t_now s - interval) (t_now s) (t_starts s) (t_ends s) (t_observed s))
(* lines 69 and 70 *)
| ps_start s : t_place s = Checking ->
    ((reps =? 0)%Z || (Z.of_nat (t_loops s) <? reps)%Z) && negb (v_cancelled v (t_loops s)) = true ->
    passes s (mkt (t_now s) (t_begin s) (t_next s) (t_chan s) Collecting (t_loops s) (t_last s) (t_now s) (t_starts s ++ [t_now s]) (t_ends s) (t_observed s))
(* lines 69 and 90 *)
| ps_stop s : t_place s = Checking ->
    ((reps =? 0)%Z || (Z.of_nat (t_loops s) <? reps)%Z) && negb (v_cancelled v (t_loops s)) = false ->
    passes s (mkt (t_now s) (t_begin s) (t_next s) (t_chan s) Stopped (t_loops s) (t_last s) (t_now s) (t_starts s) (t_ends s) (t_observed s))
(* lines 70 to 81: collectDefaultNamespace has returned, having read the clock at
   lines 32 and 41 *)
| ps_end s : t_place s = Collecting ->
    (t_since s <= v_clock v (t_loops s) AF_INET6 /\ v_clock v (t_loops s) AF_INET6 <= v_clock v (t_loops s) AF_INET
     /\ v_clock v (t_loops s) AF_INET <= t_now s)%Z ->
    passes s (mkt (t_now s) (t_begin s) (t_next s) (t_chan s) Awaiting (t_loops s) (t_now s) (t_now s) (t_starts s) (t_ends s ++ [t_now s])
      (t_observed s ++ [t_now s - t_last s])%Z)
(* line 84, and loops++ of line 69 *)
| ps_receive s : t_place s = Awaiting -> t_chan s = true ->
    passes s (mkt (t_now s) (t_begin s) (t_next s) false Checking (S (t_loops s)) (t_last s) (t_now s) (t_starts s) (t_ends s) (t_observed s)).

(** Everything that can happen when Run is called at time b. (collector/collector_linux.go:58-91) *)
Definition timed (b : Z) (s : timing) : Prop := rtc passes (started b) s.
End Timing.
