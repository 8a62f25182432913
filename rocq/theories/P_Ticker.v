(** Property C60: the pace of the collector. *)
From stdpp Require Import base list relations.
From Coq Require Import ZArith Lia.
From Verif Require Import GoBase GoTime Netlink Inetdiag Saver Collector SpecCollector Ticker TickerFacts.

Notation ms := 1000000%Z.

(** Iteration k does not begin before k times 10 ms have passed, however late the
    ticker and Run are. *)
Theorem C60_pace : forall v reps lat dur b s k t, timed v reps lat dur b s -> t_starts s !! k = Some t -> (b + 10 * ms * Z.of_nat k <= t)%Z.
Proof. intros v reps lat dur b s k t H E. destruct (timed_paced _ _ _ _ _ _ H) as (_ & _ & _ & S0 & _). apply (S0 k t E). Qed.
Print Assumptions C60_pace.

(** There are no bursts to catch up with what was missed. *)
Theorem C60_no_bursts : forall v reps lat dur b s i j t t', timed v reps lat dur b s ->
  t_starts s !! i = Some t -> t_starts s !! j = Some t' -> i + 3 <= j -> (10 * ms * (Z.of_nat j - Z.of_nat i - 3) < t' - t)%Z.
Proof.
  intros v reps lat dur b s i j t t' H E E' Hj. destruct (timed_spread _ _ _ _ _ i _ H t E) as (_ & _ & _ & _ & K).
  specialize (K j t' E' Hj). change interval with (10 * ms)%Z in K. lia.
Qed.
Print Assumptions C60_no_bursts.

(** The iterations are those that are due, one after the other, and each block has
    the times at which its two dumps were taken. *)
Theorem C60_block_times : forall v reps lat dur b s i bl, timed v reps lat dur b s -> i < length (t_ends s) -> block_of v i bl ->
  due v reps i /\ exists t t', t_starts s !! i = Some t /\ t_ends s !! i = Some t' /\
    (b + 10 * ms * Z.of_nat i <= t /\ t <= V6Time bl /\ V6Time bl <= V4Time bl /\ V4Time bl <= t')%Z /\
    (forall t'', t_starts s !! S i = Some t'' -> (t' <= t'')%Z).
Proof.
  intros v reps lat dur b s i bl H Hi (ms6 & e6 & ms4 & e4 & _ & _ & _ & _ & -> & ->).
  destruct (timed_paced _ _ _ _ _ _ H) as (_ & L & _ & S0 & E0 & O & _). destruct (timed_due _ _ _ _ _ _ H) as (D & _).
  split; [apply D; destruct (t_place s); lia|].
  destruct (lookup_lt_is_Some_2 _ _ Hi) as (t' & Et'). destruct (E0 i t' Et') as (t & Et & Q). exists t, t'.
  split; [exact Et|]. split; [exact Et'|]. split; [|intros t'' E''; exact (O i t' t'' Et' E'')].
  destruct (S0 i t Et) as (K & _). change interval with (10 * ms)%Z in K. unfold AF_INET6, AF_INET in Q. lia.
Qed.
Print Assumptions C60_block_times.

(** When Run returns no iteration is due; so with -reps r (and without
    cancellation) there were r iterations, and it took at least r times 10 ms. *)
Theorem C60_returns : forall v reps lat dur b s, timed v reps lat dur b s -> t_place s = Stopped ->
  ~ due v reps (t_loops s) /\ length (t_starts s) = t_loops s /\ length (t_ends s) = t_loops s /\ (b + 10 * ms * Z.of_nat (t_loops s) <= t_now s)%Z.
Proof.
  intros v reps lat dur b s H P. destruct (timed_due _ _ _ _ _ _ H) as (_ & D). destruct (timed_paced _ _ _ _ _ _ H) as ((_ & S0 & _ & _ & SB) & L & _).
  rewrite P in L. split; [exact (D P)|]. split; [apply L|]. split; [apply L|]. change interval with (10 * ms)%Z in SB. lia.
Qed.
Print Assumptions C60_returns.

(** If the ticker and Run are late by at most l and collecting takes at most d, with
    3 l + d below 10 ms, then no tick is lost: iteration k begins at k times 10 ms,
    at most 3 l later. *)
Theorem C60_regular : forall v reps l d b s, (0 <= l)%Z -> (0 <= d)%Z -> (3 * l + d < 10 * ms)%Z -> timed v reps (Some l) (Some d) b s ->
  (forall k t, t_starts s !! k = Some t -> (b + 10 * ms * Z.of_nat k <= t <= b + 10 * ms * Z.of_nat k + 3 * l)%Z) /\
  (forall k t, t_ends s !! k = Some t -> (b + 10 * ms * Z.of_nat k <= t <= b + 10 * ms * Z.of_nat k + 3 * l + d)%Z).
Proof. intros v reps l d b s Hl Hd Hs H. exact (proj2 (timed_regular v reps l d b Hl Hd Hs s H)). Qed.
Print Assumptions C60_regular.

(** Run never waits in vain: the next tick lets it go on. *)
Theorem C60_goes_on : forall v reps lat dur s, (forall l, lat = Some l -> (0 <= l)%Z) -> t_place s = Awaiting ->
  exists s', rtc (passes v reps lat dur) s s' /\ t_place s' = Checking /\ t_loops s' = S (t_loops s) /\ t_starts s' = t_starts s /\
    (t_now s' <= Z.max (t_now s) (t_next s))%Z.
Proof. intros v reps lat dur s Hl. apply wait_ends. destruct lat as [l|]; [exact (Hl l eq_refl)|exact I]. Qed.
Print Assumptions C60_goes_on.

(** The polling histogram gets one observation per iteration: the time between the
    ends of consecutive iterations; for the first one, 10 ms more than it took since
    before the loop. *)
Theorem C60_observed : forall v reps lat dur b s, timed v reps lat dur b s ->
  length (t_observed s) = length (t_ends s) /\
  (forall t t', t_starts s !! 0 = Some t -> t_ends s !! 0 = Some t' -> exists t0, (b <= t0 <= t)%Z /\ t_observed s !! 0 = Some (t' - t0 + 10 * ms)%Z) /\
  (forall k t t', t_ends s !! k = Some t -> t_ends s !! S k = Some t' -> t_observed s !! S k = Some (t' - t)%Z).
Proof.
  intros v reps lat dur b s H. destruct (timed_observing _ _ _ _ _ _ H) as [(_ & E & _ & O)|(t0 & B & F & _ & O & _)].
  - rewrite E, O. repeat split; intros; discriminate.
  - rewrite O. destruct (differences_lookup (t_ends s) (t0 - interval)) as (X & Y & Z). split; [exact Z|]. split; [|exact Y].
    intros t t' Et Et'. exists t0. split; [split; [exact B|exact (F t Et)]|]. rewrite (X t' Et'). f_equal. change interval with (10 * ms)%Z. lia.
Qed.
Print Assumptions C60_observed.

(** Two iterations of 3 ms each, without delays. *)
Definition v60 : environment := mkenv (fun _ _ => mksocket None (fun _ => None) (Ret 1%N) []) (fun _ _ => 1%N)
  (fun n f => (1000 + 10 * ms * Z.of_nat n + (if N.eqb f 10 then 1 else 2) * ms)%Z) (fun _ => false).
Local Ltac go c := eapply rtc_l; [first [apply c; [reflexivity|reflexivity]|apply c; reflexivity]|]; cbn.
Local Ltac small := first [reflexivity | vm_compute; discriminate | let D := fresh in intros D; vm_compute; discriminate | let D := fresh in intros D; discriminate D].
Local Ltac wait t := eapply rtc_l; [apply (ps_time _ _ _ _ _ t); [small|split; [small|cbn; small]]|]; cbn.
Example c60_run : exists s, timed v60 2 (Some 0%Z) (Some (3 * ms)%Z) 1000 s /\ t_place s = Stopped /\
  t_starts s = [1000; 10001000]%Z /\ t_ends s = [3001000; 13001000]%Z /\ t_observed s = [13 * ms; 10 * ms]%Z /\ t_now s = 20001000%Z.
Proof.
  eexists. split; [|split; [|split; [|split; [|split]]]]; cycle 1.
  1-5: shelve.
  unfold timed, started. cbn.
  go ps_begin. go ps_start. wait 3001000%Z. eapply rtc_l; [apply ps_end; [reflexivity|repeat split; small]|]; cbn.
  wait 10001000%Z. eapply rtc_l; [apply ps_tick; small|]; cbn. go ps_receive. go ps_start.
  wait 13001000%Z. eapply rtc_l; [apply ps_end; [reflexivity|repeat split; small]|]; cbn.
  wait 20001000%Z. eapply rtc_l; [apply ps_tick; small|]; cbn. go ps_receive. go ps_stop. apply rtc_refl.
  Unshelve. all: vm_compute; reflexivity.
Qed.
