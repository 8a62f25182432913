(** C69: the mutex and the wait group of the event server. *)
From Coq Require Import Strings.String.
From stdpp Require Import gmap.
From Coq Require Import NArith ZArith Lia.
From Verif Require Import GoBase Inetdiag EventName EventServer SpecEvents P_Events EventLock SpecLock LockFacts LockSim.
Local Open Scope list_scope.

(** The map of clients is read or written by one goroutine at a time, and that one
    holds the mutex. *)
Theorem C69_no_race marshal f g g' : fine_reachable marshal f -> touches g f -> touches g' f -> g = g' /\ x_lock f = Some g.
Proof. intros R T T'. split; [exact (exclusive marshal f g g' R T T')|exact (holder_touches marshal f g R T)]. Qed.
Print Assumptions C69_no_race.

(** While clients are written to, the map stays as it is. *)
Theorem C69_iteration marshal f f' line l : fine_reachable marshal f -> x_n f = FSend line l -> fine_step marshal f f' -> x_clients f' = x_clients f.
Proof.
  intros R En S. assert (T : touches Notify f) by (cbn; by rewrite En).
  destruct S as [g f' Cr S|f' Cr S|f' Cr S|f' Cr S].
  - destruct g as [| |i]; cbn [goes] in S.
    + destruct S; try reflexivity. unfold wg_done. by destruct (x_wg f).
    + destruct S as [Es|Es|Es|Es Ea|Es Ea|Es El|c Es El|c Es|Es|Es|Es]; try reflexivity; [|unfold wg_done; by destruct (x_wg f)].
      assert (T' : touches Serve f) by (cbn; by rewrite Es). by pose proof (exclusive marshal f _ _ R T T').
    + destruct S as [c E|c E El|c E Hc|c E Hc|c E|c E|c E]; try reflexivity; [|unfold wg_done; by destruct (x_wg f)].
      assert (T' : touches (Remover i) f) by (cbn; by rewrite E). by pose proof (exclusive marshal f _ _ R T T').
  - destruct S; try reflexivity. unfold wg_done. by destruct (x_wg f).
  - by destruct S.
  - by destruct S.
Qed.
Print Assumptions C69_iteration.

(** Nobody waits for a mutex they hold themselves; only the holder releases it; it
    can do so whatever the others do, and however often they come in between it
    needs no more than a fixed number of steps. *)
Theorem C69_lock marshal f g : fine_reachable marshal f ->
  (wants g f -> x_lock f <> Some g) /\
  (x_lock f = Some g ->
    (forall f', fine_step marshal f f' -> x_lock f' = Some g \/ (goes marshal g f f' /\ x_lock f' = None)) /\
    (x_crashed f = false -> exists f', rtc (fun a b => x_crashed a = false /\ goes marshal g a b) f f' /\ x_lock f' = None) /\
    (exists bound, forall n f', holds marshal g n f f' -> n <= bound)).
Proof.
  intros R. split; [exact (wants_not_holds marshal f g R)|]. intros L. split; [intros f' S; exact (only_holder marshal f f' g R L S)|]. split; [intros C; exact (released marshal f g R C L)|].
  exists (left_to_do g f). intros n f' H. exact (proj2 (proj2 (hold_bound marshal f g R n f' H))).
Qed.
Print Assumptions C69_lock.

(** Taken step by step, the server does what it does with each critical section of
    addClient and removeClient as one step, no more and no less. *)
Theorem C69_atomic marshal u :
  (exists f, fine_reachable marshal f /\ outer_fine f = u) <-> (exists s, reachable marshal s /\ outer_of s = u).
Proof.
  split.
  - intros (f & Rf & <-). destruct (refines marshal f Rf) as (s & Rs & H). exists s. split; [exact Rs|]. symmetry. apply (r_outer _ _ H).
  - intros (s & Rs & <-). destruct (complete marshal s Rs) as (f & Rf & _ & H). exists f. split; [exact Rf|]. apply (r_outer _ _ H).
Qed.
Print Assumptions C69_atomic.

(** Some goroutine of the server can go on, unless all of them have returned or wait
    for an event, a connection or the cancellation. *)
Theorem C69_no_deadlock marshal f : fine_reachable marshal f -> (exists f', own marshal f f') \/ waiting f.
Proof. exact (no_deadlock marshal f). Qed.
Print Assumptions C69_no_deadlock.

(** After the cancellation the server makes a bounded number of steps, whatever
    happens outside, and until all its goroutines have returned one of them can go
    on. *)
Theorem C69_stops marshal f : fine_reachable marshal f -> x_cancelled f = true ->
  exists bound, forall n f', fine_runs marshal n f f' -> n <= bound /\ (returned f' \/ exists f'', own marshal f' f'').
Proof.
  intros R C. exists (weight f). intros n f' H. destruct (runs_bound marshal f R C n f' H) as (B & C' & R'). split; [lia|].
  destruct (no_deadlock marshal f' R') as [S|W]; [by right|]. left. exact (waiting_cancelled marshal f' R' W C').
Qed.
Print Assumptions C69_stops.

(** servingWG.Done never panics: the only panic is that of a caller who sends on the
    closed channel. *)
Theorem C69_panic marshal f f' : fine_reachable marshal f -> fine_step marshal f f' -> x_crashed f' = true -> f_outside f f' /\ x_closed f = true.
Proof. exact (no_bad_done marshal f f'). Qed.
Print Assumptions C69_panic.

(** When servingWG.Wait returns, Serve and the cleanup have returned and the listener
    and the channel are closed; nothing is broadcast, written or added any more. *)
Theorem C69_wait marshal f f' : fine_reachable marshal f -> x_wg f = 0 -> rtc (fine_step marshal) f f' ->
  x_s f = GEnd /\ x_c f = KEnd /\ x_lclosed f = true /\ x_closed f = true /\
  exists t, x_log f' = x_log f ++ t /\ Forall tidies t.
Proof.
  intros R W H. destruct (wg_zero marshal f R W) as (E1 & E2 & E3 & E4 & _). do 4 (split; [assumption|]).
  exact (proj2 (late_runs marshal f f' (zero_late marshal f R W) H)).
Qed.
Print Assumptions C69_wait.
(** And when all goroutines have returned it does return. *)
Theorem C69_wait_returns marshal f : fine_reachable marshal f -> returned f -> x_wg f = 0.
Proof. exact (wg_returned marshal f). Qed.
Print Assumptions C69_wait_returns.

(** ** But servingWG.Wait may return before notifyClients has even begun *)
Ltac fg g t := eapply rtc_l; [apply (by_goroutine _ _ g); [reflexivity|]; t|].
Ltac fk t := eapply rtc_l; [apply by_cleanup; [reflexivity|]; t|].
Ltac fo t := eapply rtc_l; [apply by_others; [reflexivity|]; t|].
Definition early : fine := mkfine true [] true true ∅ None FAdd GEnd KEnd [] [] 0 0 false [OCloseListener; OCloseChan].
Lemma early_reachable marshal : fine_reachable marshal early.
Proof.
  unfold fine_reachable, finit.
  fg Serve ltac:(by apply fg_notify). fg Serve ltac:(by apply fg_add). fg Serve ltac:(by apply fg_cleanup).
  fo ltac:(by apply fo_cancel).
  fg Serve ltac:(by apply fg_end). fg Serve ltac:(by apply fg_cancel). fg Serve ltac:(by apply fg_done).
  fk ltac:(by apply fk_wait). fk ltac:(by apply fk_listener). fk ltac:(by apply fk_chan). fk ltac:(by apply fk_done).
  apply rtc_refl.
Qed.
(** The counter is zero and a goroutine of the server still has to run; its first
    step raises the counter again. *)
Theorem C69_wait_for_all_refuted marshal : ~ (forall f, fine_reachable marshal f -> x_wg f = 0 -> returned f).
Proof. intros H. destruct (H early (early_reachable marshal) eq_refl) as [E _]. discriminate E. Qed.
Print Assumptions C69_wait_for_all_refuted.
Theorem C69_counter_stays_refuted marshal : ~ (forall f f', fine_reachable marshal f -> x_wg f = 0 -> fine_step marshal f f' -> x_wg f' = 0).
Proof.
  intros H. specialize (H early (p_n FTest (wg_add early)) (early_reachable marshal) eq_refl). discriminate H.
  apply (by_goroutine _ _ Notify); [reflexivity|]. by apply fn_add.
Qed.
Print Assumptions C69_counter_stays_refuted.

(** ** Examples *)
(** A client is being written to, another has been accepted, and the goroutine that
    is to remove the first one waits as well. *)
Definition busy : fine :=
  mkfine false [] false false ({[0]} ∪ ∅) (Some Notify) (FSend (str "a" ++ [x0a]) [0]) (GLock 1) KWait [(0, RLock)] [0] 2 4 false
    [OAdd 0; OSubmit (ev "a"); OBroadcast (str "a" ++ [x0a]); OWrite 0 (str "a" ++ [x0a]) (Some 1)].
Lemma busy_reachable : fine_reachable name busy.
Proof.
  unfold fine_reachable, finit.
  fg Serve ltac:(by apply fg_notify). fg Notify ltac:(by apply fn_add). fg Serve ltac:(by apply fg_add). fg Serve ltac:(by apply fg_cleanup).
  fg Serve ltac:(by apply fg_continue). fo ltac:(by apply fo_accept).
  fg Serve ltac:(by apply (fg_lock _ 0)). fg Serve ltac:(by apply (fg_store _ 0)). fg Serve ltac:(by apply fg_unlock).
  fg Serve ltac:(by apply fg_continue). fo ltac:(by apply fo_accept).
  fo ltac:(apply (fo_submit _ (ev "a")); [reflexivity|vm_compute; lia]).
  fg Notify ltac:(by apply fn_continue). fg Notify ltac:(by apply (fn_event _ _ (ev "a") [] (str "a"))).
  fg Notify ltac:(by apply (fn_lock _ _ (str "a"))). fg Notify ltac:(by apply (fn_iter _ _ (str "a"))).
  fg Notify ltac:(apply (fn_fail _ _ (str "a" ++ [x0a]) [] 0 1); [reflexivity|cbn; set_solver|apply not_elem_of_nil|vm_compute; lia|]).
  { cbn. intros X. exfalso. set_solver. }
  fg (Remover 0) ltac:(by apply (fr_add 0 _ 0)).
  apply rtc_refl.
Qed.
Example busy_touches : touches Notify busy /\ wants Serve busy /\ wants (Remover 0) busy.
Proof. by repeat split. Qed.
(** The mutex is held, and the holder can go on although two others wait. *)
Example busy_goes_on : exists f', rtc (fun a b => x_crashed a = false /\ goes name Notify a b) busy f' /\ x_lock f' = None.
Proof. apply (C69_lock name busy Notify busy_reachable); reflexivity. Qed.
(** The same can be seen of the server with single steps. *)
Example busy_seen : exists s, reachable name s /\ outer_of s = outer_fine busy.
Proof. apply C69_atomic. exists busy. split; [apply busy_reachable|reflexivity]. Qed.
(** The server at rest: it waits for an event and for a connection. *)
Definition idle : fine := mkfine false [] false false ∅ None FRecv GAccept KWait [] [] 0 3 false [].
Lemma idle_reachable marshal : fine_reachable marshal idle.
Proof.
  unfold fine_reachable, finit.
  fg Serve ltac:(by apply fg_notify). fg Notify ltac:(by apply fn_add). fg Serve ltac:(by apply fg_add). fg Serve ltac:(by apply fg_cleanup).
  fg Serve ltac:(by apply fg_continue). fg Notify ltac:(by apply fn_continue). apply rtc_refl.
Qed.
Example idle_waits : waiting idle.
Proof. split; [by right|]. split; [by right|]. split; [by right|]. split; [constructor|reflexivity]. Qed.
(** All goroutines have returned and the counter is zero. *)
Definition over : fine := mkfine true [] true true ∅ None FEnd GEnd KEnd [] [] 0 0 false [OCloseListener; OCloseChan].
Lemma over_reachable marshal : fine_reachable marshal over.
Proof.
  red. transitivity early; [apply early_reachable|].
  fg Notify ltac:(by apply fn_add). fg Notify ltac:(by apply fn_end). fg Notify ltac:(by apply fn_done). apply rtc_refl.
Qed.
Example over_returned : returned over.
Proof. do 3 (split; [reflexivity|]). split; [constructor|reflexivity]. Qed.
(** A caller who comes too late. *)
Example late_caller marshal : exists f', fine_step marshal over f' /\ x_crashed f' = true.
Proof. exists (p_crashed over). split; [|reflexivity]. apply by_others; [reflexivity|]. by apply (fo_panic _ (ev "a")). Qed.
