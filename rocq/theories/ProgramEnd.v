(** The program as a whole: it does not get stuck, and it ends. *)
From stdpp Require Import gmap relations.
From Coq Require Import NArith ZArith Lia.
From Verif Require Import GoBase Inetdiag Netlink Cache Saver SpecSaver System SpecSystem SystemInv SystemFiles SystemRefine SystemEnd SystemHidden Program SpecProgram ProgramFacts.
From Verif Require EventServer SpecEvents EventFacts Collector SpecCollector CollectorFacts.

(** ** The event server makes room *)
Section Server.
Import EventServer.
Variable marshal : flow_event -> option bytes.
Notation server := (server marshal).
Definition same_flags (s s' : state) : Prop := cancelled s' = cancelled s /\ crashed s' = crashed s /\ closed s' = closed s.

Lemma send_all line todo : forall s, np s = NSend line todo ->
  exists s', rtc server s s' /\ np s' = NTest /\ buf s' = buf s /\ same_flags s s'.
Proof.
  induction todo as [|c todo IH]; intros s E.
  - exists (set_np NTest s). split; [apply rtc_once; by eapply n_unlock|]. repeat split.
  - set (s1 := add_log (OWrite c line (Some 0)) (set_tasks (removers s ++ [c]) (closers s ++ [c]) (set_np (NSend line ([] ++ todo)) s))).
    destruct (IH s1 eq_refl) as (s' & R & N & B & F). exists s'. split; [|split; [exact N|split; [exact B|exact F]]].
    eapply rtc_l; [|exact R]. apply (n_fail marshal s line [] c todo 0); [exact E|lia|done].
Qed.
Lemma to_test s : np s <> NEnd -> cancelled s = false -> np s <> NRecv ->
  exists s', rtc server s s' /\ np s' = NTest /\ buf s' = buf s /\ same_flags s s'.
Proof.
  intros N C R. destruct (np s) as [| |d|line todo|] eqn:E; try congruence.
  - exists s. split; [apply rtc_refl|]. repeat split. exact E.
  - destruct (send_all (d ++ [x0a]) (elements (clients s)) (add_log (OBroadcast (d ++ [x0a])) (set_np (NSend (d ++ [x0a]) (elements (clients s))) s)) eq_refl)
      as (s' & Rs & N' & B & F). exists s'. split; [|split; [exact N'|split; [exact B|exact F]]]. eapply rtc_l; [|exact Rs]. by apply n_lock.
  - destruct (send_all line todo s E) as (s' & Rs & H). by exists s'.
Qed.
Lemma makes_room s : np s <> NEnd -> cancelled s = false -> buf s <> [] ->
  exists s', rtc server s s' /\ length (buf s') < length (buf s) /\ same_flags s s'.
Proof.
  intros N C B.
  assert (H : exists s1, rtc server s s1 /\ np s1 = NRecv /\ buf s1 = buf s /\ same_flags s s1).
  { assert (D : np s = NRecv \/ np s <> NRecv) by (destruct (np s); auto; right; discriminate). destruct D as [D|D].
    - exists s. split; [apply rtc_refl|]. repeat split. exact D.
    - destruct (to_test s N C D) as (s1 & R1 & N1 & B1 & F1). exists (set_np NRecv s1). split; [|split; [reflexivity|split; [exact B1|exact F1]]].
      eapply rtc_r; [exact R1|]. apply n_continue; [exact N1|]. destruct F1 as (F1 & _). congruence. }
  destruct H as (s1 & R1 & N1 & B1 & F1). destruct (buf s) as [|e r] eqn:Eb; [done|].
  destruct (marshal e) as [d|] eqn:M.
  - exists (set_np (NLock d) (set_buf r s1)). split; [eapply rtc_r; [exact R1|]; by apply (n_event marshal s1 e r d)|]. split; [cbn; lia|exact F1].
  - exists (set_np NTest (set_buf r s1)). split; [eapply rtc_r; [exact R1|]; by apply (n_bad marshal s1 e r)|]. split; [cbn; lia|exact F1].
Qed.
Lemma not_ended s : reachable marshal s -> cancelled s = false -> np s <> NEnd.
Proof.
  intros Hr. revert s Hr. apply (EventFacts.invariant marshal (fun s => cancelled s = false -> np s <> NEnd)); [done|].
  intros s s' _ IH [s1 _ H|s1 _ H]; destruct H; cbn; intros Hc; try (by apply IH); try discriminate; congruence.
Qed.
End Server.

Section Ends.
Variables (w : world) (cf : config) (cap : nat) (anon : bytes -> bytes) (line : archival -> bytes) (hline : metadata -> bytes).
Variables (v : Collector.environment) (reps : Z) (on : bool) (marshal : EventServer.flow_event -> option bytes).
Hypothesis Hlen : forall x, length (anon x) = length x.
Hypothesis Hn : 1 <= nmarsh cf.
Notation sstep := (System.step w cf cap anon line hline).
Notation sreachable := (System.reachable w cf cap anon line hline).
Notation work := (work w cf cap anon line hline v reps on).
Notation elsewhere := (elsewhere on marshal).
Notation moves := (moves w cf cap anon line hline v reps on marshal).
Notation possible := (possible w cf cap anon line hline v reps on marshal).

(** No panic other than that of the event server, and no crash of the saver on
    blocks it can parse. *)
Lemma no_panic g : possible g -> y_panic (g_sys g) = false.
Proof.
  intros Hp. pose proof (full_reachable w cf cap anon line hline v reps on marshal g Hp) as R.
  destruct (invariants w cf cap anon line hline Hlen (g_sent g) Hn _ R) as (_ & _ & P & _).
  destruct (full_saver g) as (_ & _ & _ & _ & _ & <-). exact P.
Qed.
Lemma no_death g : possible g -> fair_order w -> all_comparable cf (g_sent g) -> Forall (parses cf) (g_sent g) ->
  s_dead (y_saver (g_sys g)) = false.
Proof.
  intros Hp Hf Hc Hpar. pose proof (full_reachable w cf cap anon line hline v reps on marshal g Hp) as R.
  destruct (full_saver g) as (<- & _). by eapply never_dead.
Qed.
Lemma keeps_running g : possible g -> fair_order w -> all_comparable cf (g_sent g) -> Forall (parses cf) (g_sent g) ->
  EventServer.crashed (g_srv g) = false -> g_main g <> MExit -> running g.
Proof.
  intros Hp Hf Hc Hpar Hcr Hm. split; [exact Hm|]. split; [exact Hcr|]. split; [by apply no_panic|]. intros [D _].
  rewrite (no_death g Hp Hf Hc Hpar) in D. discriminate D.
Qed.

(** ** Progress *)
Lemma after_exit g : possible g -> g_main g = MExit -> fair_order w -> all_comparable cf (g_sent g) -> Forall (parses cf) (g_sent g) ->
  g_ended g = true /\ g_chan g = [] /\ finished (g_sys g).
Proof.
  intros Hp Hm Hf Hc Hpar.
  assert (W : y_wg (g_sys g) = 0).
  { clear Hf Hc Hpar. revert g Hp Hm. apply (rtc_ind_r (R := moves) (fun g => g_main g = MExit -> y_wg (g_sys g) = 0)); [discriminate|].
    intros g g' _ [g2 (R1 & R2 & R3) Wk|g2 (R1 & R2 & R3) O] H Hm.
    - destruct Wk; cbn in *; try discriminate Hm; try congruence.
    - destruct O; cbn in *; auto. }
  pose proof (full_reachable w cf cap anon line hline v reps on marshal g Hp) as R. destruct (full_saver g) as (_ & _ & _ & _ & Ew & _).
  destruct (wait_complete w cf cap anon line hline Hlen Hn (g_sent g) Hc Hpar Hf _ R) as [F _]; [by rewrite Ew|].
  destruct (invs w cf cap anon line hline v reps on marshal g Hp) as [_ (rcv & E & I)].
  unfold full in F. destruct (g_ended g).
  - split; [done|]. split; [apply I|exact F].
  - destruct F as (_ & J & _). cbn in J. apply app_eq_nil in J as [_ J]. apply app_eq_nil in J as [_ J]. discriminate J.
Qed.

Lemma step_work g y : sstep (g_sys g) y ->
  (exists g', work g g') \/ (on = true /\ EventServer.closed (g_srv g) = false /\ EventServer.capacity <= length (EventServer.buf (g_srv g)) /\
    exists e, submits w on (g_sys g) y = Some e).
Proof.
  intros S. destruct (submits w on (g_sys g) y) as [e|] eqn:E.
  - destruct (EventServer.closed (g_srv g)) eqn:C; [left; eexists; by eapply k_panic|].
    destruct (decide (length (EventServer.buf (g_srv g)) < EventServer.capacity)) as [L|L]; [left; eexists; by eapply k_event|].
    right. split; [|split; [done|split; [lia|by exists e]]]. unfold submits in E. destruct (_ =? _); [discriminate E|]. by destruct on.
  - left. eexists. by eapply k_sys.
Qed.

Lemma work_progress g : possible g -> running g -> 1 <= cap -> fair_order w -> all_comparable cf (g_sent g) -> Forall (parses cf) (g_sent g) ->
  answers v ->
  (exists g', work g g') \/
  (on = true /\ EventServer.closed (g_srv g) = false /\ EventServer.capacity <= length (EventServer.buf (g_srv g)) /\
    exists y e, sstep (g_sys g) y /\ submits w on (g_sys g) y = Some e).
Proof.
  intros Hp (R1 & R2 & R3) Hcap Hf Hc Hpar Ha. pose proof (full_reachable w cf cap anon line hline v reps on marshal g Hp) as R.
  destruct (invs w cf cap anon line hline v reps on marshal g Hp) as [(I1 & I2 & I3 & I4 & I5 & I6) (rcv & E & I)].
  assert (SW : forall y, sstep (g_sys g) y -> (exists g', work g g') \/
    (on = true /\ EventServer.closed (g_srv g) = false /\ EventServer.capacity <= length (EventServer.buf (g_srv g)) /\
    exists y e, sstep (g_sys g) y /\ submits w on (g_sys g) y = Some e)).
  { intros y S. destruct (step_work g y S) as [H|(H1 & H2 & H3 & e & H4)]; [by left|]. right. split; [done|]. split; [done|]. split; [done|]. by exists y, e. }
  destruct (no_deadlock w cf cap anon line hline Hlen Hn (g_sent g) Hc Hcap Hpar Hf _ R) as [F|[z S]].
  - left. destruct (full_saver g) as (_ & _ & _ & _ & Ew & _). destruct F as (_ & J & _ & W & _). rewrite Ew in W. unfold full in J.
    destruct (g_ended g) eqn:En.
    + specialize (I4 eq_refl). rewrite I3 in I4. destruct (g_main g) eqn:M; try discriminate I4; [|by destruct R1]. eexists. by apply k_exit.
    + cbn in J. apply app_eq_nil in J as [_ J]. apply app_eq_nil in J as [_ J]. discriminate J.
  - unfold full in S. destruct (g_ended g) eqn:En; [by eapply SW|].
    apply plus_step in S as [(y & S & _)|(J & P & A)]; [by eapply SW|].
    left. assert (Rc : receiving g) by done. destruct (g_chan g) as [|b bs] eqn:C; [|eexists; by eapply k_block].
    destruct (g_closed g) eqn:Cl; [eexists; by eapply k_end|].
    destruct (g_main g) as [n|n b| | |] eqn:M; try discriminate I3.
    + destruct (goes_on reps n g) eqn:G.
      * destruct (Ha n) as [b B]. apply CollectorFacts.block_collect in B as [c B]. eexists. by eapply k_collect.
      * eexists. by eapply k_return.
    + eexists. eapply k_send; [exact M|]. rewrite C. cbn. unfold svr_capacity. lia.
    + eexists. by eapply k_close.
Qed.

Lemma lift_server g s : on = true -> rtc (EventServer.server marshal) (g_srv g) s -> rtc elsewhere g (with_srv s g).
Proof.
  intros Hon H. remember (g_srv g) as s0 eqn:E0. revert g E0. induction H as [s|s s1 s2 St _ IH]; intros g ->.
  - replace (with_srv (g_srv g) g) with g by (destruct g; reflexivity). apply rtc_refl.
  - eapply rtc_l; [by apply e_server|]. exact (IH (with_srv s1 g) eq_refl).
Qed.

(** The process is never stuck: after some steps of the event server, if it is
    its turn, main, the saver or a marshaller can go on. *)
Lemma never_stuck g : possible g -> running g -> EventServer.cancelled (g_srv g) = false ->
  1 <= cap -> fair_order w -> all_comparable cf (g_sent g) -> Forall (parses cf) (g_sent g) -> answers v ->
  exists g1 g2, rtc elsewhere g g1 /\ EventServer.cancelled (g_srv g1) = false /\ EventServer.crashed (g_srv g1) = false /\
    g1 = with_srv (g_srv g1) g /\ work g1 g2 /\ EventServer.crashed (g_srv g2) = false.
Proof.
  intros Hp Hr Hcan Hcap Hf Hc Hpar Ha. pose proof Hr as (Hr1 & Hr2 & Hr3).
  destruct (not_closed w cf cap anon line hline v reps on marshal g Hp Hcan) as [Ncl _].
  destruct (work_progress g Hp Hr Hcap Hf Hc Hpar Ha) as [(g' & W)|(Hon & Cl & L & y & e & S & E)].
  - exists g, g'. split; [apply rtc_refl|]. split; [exact Hcan|]. split; [exact Hr2|]. split; [by destruct g|]. split; [exact W|].
    destruct W; cbn; try exact Hr2. congruence.
  - pose proof (server_possible w cf cap anon line hline v reps on marshal g Hp Hon) as Rs.
    destruct (makes_room marshal (g_srv g)) as (s' & R' & L' & F1 & F2 & F3); [by apply (not_ended marshal)|exact Hcan|intros B; rewrite B in L; cbn in L; unfold EventServer.capacity in L; lia|].
    assert (Lb : length (EventServer.buf (g_srv g)) <= EventServer.capacity).
    { clear -Rs. revert Rs. generalize (g_srv g). apply (EventFacts.invariant marshal (fun s => length (EventServer.buf s) <= EventServer.capacity)); [cbn; lia|].
      intros s s' _ A [s1 _ H|s1 _ H]; destruct H; cbn; try exact A; try (rewrite H0 in A; cbn in A; lia). rewrite app_length. cbn. lia. }
    exists (with_srv s' g). eexists. split; [by apply lift_server|]. cbn [g_srv with_srv].
    split; [congruence|]. split; [congruence|]. split; [reflexivity|]. split.
    + eapply (k_event w cf cap anon line hline v reps on (with_srv s' g) y e); [exact S|exact E|cbn; congruence|cbn; lia].
    + cbn. congruence.
Qed.

(** ** Termination *)
(** The event server, its clients or the end of ctx. *)
Definition others (g g' : prog) : Prop := running g /\ elsewhere g g'.
(** One step of main, the saver or a marshaller, after any number of others. *)
Definition advances (g g' : prog) : Prop := exists h, rtc others g h /\ running h /\ work h g'.

Lemma others_moves g h : rtc others g h -> rtc moves g h.
Proof. induction 1 as [g|g h k [R O] _ IH]; [apply rtc_refl|]. eapply rtc_l; [by apply by_others|exact IH]. Qed.
Lemma others_keep g h : rtc others g h -> h = with_srv (g_srv h) g.
Proof.
  induction 1 as [g|g h k [R O] _ IH]; [by destruct g|]. rewrite IH. destruct O; reflexivity.
Qed.
Lemma advances_moves g g' : advances g g' -> rtc moves g g'.
Proof. intros (h & O & R & W). eapply rtc_r; [by apply others_moves|by apply by_work]. Qed.

Definition main_left (p : mpc) : nat :=
  match p with
  | MLoop n => 2 * (Z.to_nat reps - n) + 4
  | MSend n _ => 2 * (Z.to_nat reps - n) + 3
  | MClose => 2
  | MWait => 1
  | MExit => 0
  end.
Definition chan_left (g : prog) : nat := length (g_chan g) + (if g_ended g then 0 else 1).
Definition alive_left (g : prog) : nat := if EventServer.crashed (g_srv g) then 0 else 1.

Lemma work_decreases g g' : reps <> 0%Z -> possible g -> running g -> work g g' ->
  main_left (g_main g') < main_left (g_main g) \/
  (g_main g' = g_main g /\ chan_left g' < chan_left g) \/
  (g_main g' = g_main g /\ chan_left g' = chan_left g /\ alive_left g' < alive_left g) \/
  (g_main g' = g_main g /\ chan_left g' = chan_left g /\ alive_left g' = alive_left g /\ sstep (g_sys g) (g_sys g')).
Proof.
  clear Hlen Hn.
  intros Hreps Hp (R1 & R2 & R3) W. destruct (invs w cf cap anon line hline v reps on marshal g Hp) as [(I1 & I2 & I3 & I4 & I5 & I6) _].
  destruct W as [n b c M G C|n b M L|n M G|M|M Wg|b bs (R4 & R5 & R6) C|(R4 & R5 & R6) C Cl|y S E|y e S E Cl L|y e S E Cl].
  - left. cbn. rewrite M. cbn. lia.
  - left. cbn. rewrite M in *. cbn. destruct I6 as (_ & [I6|I6] & _); lia.
  - left. cbn. rewrite M. cbn. lia.
  - left. cbn. rewrite M. cbn. lia.
  - left. cbn. rewrite M. cbn. lia.
  - right. left. split; [reflexivity|]. unfold chan_left. cbn. rewrite C, R4. cbn. lia.
  - right. left. split; [reflexivity|]. unfold chan_left. cbn. rewrite R4. lia.
  - right. right. right. split; [reflexivity|]. split; [reflexivity|]. split; [reflexivity|]. exact S.
  - right. right. right. split; [reflexivity|]. split; [reflexivity|]. split; [reflexivity|]. exact S.
  - right. right. left. split; [reflexivity|]. split; [reflexivity|]. unfold alive_left. cbn. rewrite R2. lia.
Qed.

Lemma advance_acc : reps <> 0%Z -> forall g, possible g -> Acc (fun g' g => advances g g') g.
Proof.
  clear Hlen Hn.
  intros Hreps.
  assert (K : forall m c a y g, possible g -> main_left (g_main g) = m -> chan_left g = c -> alive_left g <= a -> g_sys g = y -> Acc (fun g' g => advances g g') g).
  { intros m. induction (lt_wf m) as [m _ IHm]. intros c. induction (lt_wf c) as [c _ IHc]. intros a. induction (lt_wf a) as [a _ IHa].
    intros y. induction (terminates w cf cap anon line hline y) as [y _ IHy]. intros g Hp Em Ec Ea Ey. constructor. intros g' (h & O & R & W).
    assert (Hh : possible h) by (eapply rtc_transitive; [exact Hp|by apply others_moves]).
    assert (Hg' : possible g') by (eapply rtc_r; [exact Hh|by apply by_work]).
    pose proof (others_keep g h O) as Eh.
    assert (E1 : g_main h = g_main g) by (rewrite Eh; reflexivity). assert (E2 : chan_left h = chan_left g) by (rewrite Eh; reflexivity).
    assert (E3 : g_sys h = g_sys g) by (rewrite Eh; reflexivity).
    assert (E4 : alive_left h <= alive_left g).
    { clear -O. induction O as [g|g h k [R O] _ IH]; [lia|]. etransitivity; [exact IH|]. unfold alive_left. destruct R as (_ & R & _). rewrite R. destruct (EventServer.crashed (g_srv h)); lia. }
    destruct (work_decreases h g' Hreps Hh R W) as [D|[(D1 & D2)|[(D1 & D2 & D3)|(D1 & D2 & D3 & D4)]]].
    - apply (IHm (main_left (g_main g')) ltac:(rewrite E1 in D; lia) (chan_left g') (alive_left g') (g_sys g')); auto.
    - apply (IHc (chan_left g') ltac:(lia) (alive_left g') (g_sys g')); auto. rewrite D1, E1. exact Em.
    - apply (IHa (alive_left g') ltac:(lia) (g_sys g')); auto; [rewrite D1, E1; exact Em|congruence].
    - apply (IHy (g_sys g')); auto; [rewrite <- Ey, <- E3; exact D4|rewrite D1, E1; exact Em|congruence|lia]. }
  intros g Hp. by eapply K.
Qed.

Lemma no_endless (f : nat -> prog) : reps <> 0%Z -> possible (f 0) -> ~ (forall n, advances (f n) (f (S n))).
Proof.
  clear Hlen Hn.
  intros Hreps Hp H. assert (A := advance_acc Hreps (f 0) Hp). remember (f 0) as g eqn:E. assert (Hn' : exists n, f n = g) by (by exists 0).
  clear E Hp. induction A as [g _ IH]. destruct Hn' as [n En]. apply (IH (f (S n))); [rewrite <- En; apply H|by exists (S n)].
Qed.

(** ** Between two blocks *)
Definition main_stage (p : mpc) : nat := match p with MLoop _ => 4 | MSend _ _ => 3 | MClose => 2 | MWait => 1 | MExit => 0 end.
Lemma stage_decreases g g' : running g -> work g g' -> g_sent g' = g_sent g ->
  main_stage (g_main g') < main_stage (g_main g) \/
  (g_main g' = g_main g /\ chan_left g' < chan_left g) \/
  (g_main g' = g_main g /\ chan_left g' = chan_left g /\ alive_left g' < alive_left g) \/
  (g_main g' = g_main g /\ chan_left g' = chan_left g /\ alive_left g' = alive_left g /\ sstep (g_sys g) (g_sys g')).
Proof.
  clear Hlen Hn.
  intros (R1 & R2 & R3) W Es.
  destruct W as [n b c M G C|n b M L|n M G|M|M Wg|b bs (R4 & R5 & R6) C|(R4 & R5 & R6) C Cl|y S E|y e S E Cl L|y e S E Cl].
  - left. cbn. rewrite M. cbn. lia.
  - cbn in Es. apply (f_equal length) in Es. rewrite app_length in Es. cbn in Es. lia.
  - left. cbn. rewrite M. cbn. lia.
  - left. cbn. rewrite M. cbn. lia.
  - left. cbn. rewrite M. cbn. lia.
  - right. left. split; [reflexivity|]. unfold chan_left. cbn. rewrite C, R4. cbn. lia.
  - right. left. split; [reflexivity|]. unfold chan_left. cbn. rewrite R4. lia.
  - right. right. right. split; [reflexivity|]. split; [reflexivity|]. split; [reflexivity|]. exact S.
  - right. right. right. split; [reflexivity|]. split; [reflexivity|]. split; [reflexivity|]. exact S.
  - right. right. left. split; [reflexivity|]. split; [reflexivity|]. unfold alive_left. cbn. rewrite R2. lia.
Qed.
Lemma round_acc : forall g, Acc (fun g' g => advances g g' /\ g_sent g' = g_sent g) g.
Proof.
  clear Hlen Hn.
  assert (K : forall m c a y g, main_stage (g_main g) = m -> chan_left g = c -> alive_left g <= a -> g_sys g = y -> Acc (fun g' g => advances g g' /\ g_sent g' = g_sent g) g).
  { intros m. induction (lt_wf m) as [m _ IHm]. intros c. induction (lt_wf c) as [c _ IHc]. intros a. induction (lt_wf a) as [a _ IHa].
    intros y. induction (terminates w cf cap anon line hline y) as [y _ IHy]. intros g Em Ec Ea Ey. constructor. intros g' ((h & O & R & W) & Es).
    pose proof (others_keep g h O) as Eh.
    assert (E1 : g_main h = g_main g) by (rewrite Eh; reflexivity). assert (E2 : chan_left h = chan_left g) by (rewrite Eh; reflexivity).
    assert (E3 : g_sys h = g_sys g) by (rewrite Eh; reflexivity). assert (E5 : g_sent h = g_sent g) by (rewrite Eh; reflexivity).
    assert (E4 : alive_left h <= alive_left g).
    { clear -O. induction O as [g|g h k [R O] _ IH]; [lia|]. etransitivity; [exact IH|]. unfold alive_left. destruct R as (_ & R & _). rewrite R. destruct (EventServer.crashed (g_srv h)); lia. }
    destruct (stage_decreases h g' R W ltac:(congruence)) as [D|[(D1 & D2)|[(D1 & D2 & D3)|(D1 & D2 & D3 & D4)]]].
    - apply (IHm (main_stage (g_main g')) ltac:(rewrite E1 in D; lia) (chan_left g') (alive_left g') (g_sys g')); auto.
    - apply (IHc (chan_left g') ltac:(lia) (alive_left g') (g_sys g')); auto. rewrite D1, E1. exact Em.
    - apply (IHa (alive_left g') ltac:(lia) (g_sys g')); auto; [rewrite D1, E1; exact Em|congruence].
    - apply (IHy (g_sys g')); auto; [rewrite <- Ey, <- E3; exact D4|rewrite D1, E1; exact Em|congruence|lia]. }
  intros g. by eapply K.
Qed.
(** No endless work without another block. *)
Lemma no_stall (f : nat -> prog) : ~ (forall n, advances (f n) (f (S n)) /\ g_sent (f (S n)) = g_sent (f n)).
Proof.
  clear Hlen Hn.
  intros H. assert (A := round_acc (f 0)). remember (f 0) as g eqn:E. assert (Hn' : exists n, f n = g) by (by exists 0).
  clear E. induction A as [g _ IH]. destruct Hn' as [n En]. apply (IH (f (S n))); [rewrite <- En; apply H|by exists (S n)].
Qed.

Lemma blocks_good g : possible g -> (forall n b, SpecCollector.block_of v n b -> parses cf b /\ Forall SpecCompare.comparable (accepted cf b)) ->
  all_comparable cf (g_sent g) /\ Forall (parses cf) (g_sent g).
Proof.
  intros Hh Hb. destruct (invs w cf cap anon line hline v reps on marshal g Hh) as [(I1 & _) _]. split; apply Forall_lookup; intros i b Hi; apply (Hb i b), I1, Hi.
Qed.
Lemma can_advance g : possible g -> EventServer.cancelled (g_srv g) = false -> g_main g <> MExit ->
  1 <= cap -> fair_order w -> answers v ->
  (forall n b, SpecCollector.block_of v n b -> parses cf b /\ Forall SpecCompare.comparable (accepted cf b)) ->
  exists g', advances g g' /\ possible g' /\ EventServer.cancelled (g_srv g') = false.
Proof.
  intros Hp Hcan D Hcap Hf Ha Hb.
  destruct (blocks_good g Hp Hb) as [H1 H2]. destruct (not_closed w cf cap anon line hline v reps on marshal g Hp Hcan) as [_ Hcr].
  assert (Hr : running g) by (by apply keeps_running).
  destruct (never_stuck g Hp Hr Hcan Hcap Hf H1 H2 Ha) as (g1 & g2 & O & C1 & C2 & E1 & W & C3).
  assert (Ad : advances g g2).
  { exists g1. split; [|split; [|exact W]].
    - assert (Q : forall a b, rtc elsewhere a b -> EventServer.crashed (g_srv b) = false -> (g_main a <> MExit /\ alive (g_sys a)) -> rtc others a b).
      { intros a b. induction 1 as [a|a b c St Hr' IH']; intros Hb' Ha'; [apply rtc_refl|].
        assert (Hx : g_main b <> MExit /\ alive (g_sys b)) by (destruct St; exact Ha'). specialize (IH' Hb' Hx).
        assert (Hcb : EventServer.crashed (g_srv b) = false).
        { clear -IH' Hb'. inversion IH' as [x|x y z [Rx _] _]; subst; [exact Hb'|apply Rx]. }
        eapply rtc_l; [|exact IH']. split; [|exact St]. split; [apply Ha'|]. split; [|apply Ha'].
        destruct St as [s On S|s S B C]; cbn in Hcb; destruct S; cbn in *; try assumption; congruence. }
      apply Q; [exact O|exact C2|split; [exact D|apply Hr]].
    - rewrite E1. split; [exact D|]. split; [exact C2|apply Hr]. }
  exists g2. split; [exact Ad|]. split; [eapply rtc_transitive; [exact Hp|by apply advances_moves]|]. destruct W; cbn; exact C1.
Qed.

(** Every state leads to the end of main, if ctx is not done in between. *)
Lemma leads_to_exit : reps <> 0%Z -> 1 <= cap -> fair_order w -> answers v ->
  (forall n b, SpecCollector.block_of v n b -> parses cf b /\ Forall SpecCompare.comparable (accepted cf b)) ->
  forall g, possible g -> EventServer.cancelled (g_srv g) = false ->
  exists g', rtc moves g g' /\ g_main g' = MExit /\ EventServer.cancelled (g_srv g') = false.
Proof.
  intros Hreps Hcap Hf Ha Hb g Hp Hcan. induction (advance_acc Hreps g Hp) as [g _ IH].
  assert (D : g_main g = MExit \/ g_main g <> MExit) by (destruct (g_main g); auto; right; discriminate).
  destruct D as [D|D]; [exists g; split; [apply rtc_refl|done]|].
  destruct (can_advance g Hp Hcan D Hcap Hf Ha Hb) as (g2 & Ad & Hp2 & Hc2).
  destruct (IH g2 Ad Hp2 Hc2) as (g' & R' & M' & C'). exists g'. split; [|done]. eapply rtc_transitive; [by apply advances_moves|exact R'].
Qed.

(** With -reps 0 another block always follows. *)
Lemma sent_advances g g' : advances g g' -> g_sent g' = g_sent g \/ length (g_sent g') = S (length (g_sent g)).
Proof.
  clear Hlen Hn.
  intros (h & O & _ & W). assert (E : g_sent h = g_sent g) by (rewrite (others_keep g h O); reflexivity). rewrite <- E.
  destruct W; cbn; auto. right. rewrite app_length. cbn. lia.
Qed.
Lemma next_block : reps = 0%Z -> 1 <= cap -> fair_order w -> answers v ->
  (forall n b, SpecCollector.block_of v n b -> parses cf b /\ Forall SpecCompare.comparable (accepted cf b)) ->
  forall g, possible g -> EventServer.cancelled (g_srv g) = false ->
  exists g', rtc moves g g' /\ length (g_sent g') = S (length (g_sent g)) /\ EventServer.cancelled (g_srv g') = false.
Proof.
  intros Hreps Hcap Hf Ha Hb g Hp Hcan. induction (round_acc g) as [g _ IH].
  assert (D : g_main g <> MExit).
  { intros D. destruct (invs w cf cap anon line hline v reps on marshal g Hp) as [(_ & _ & _ & _ & _ & I6) _]. rewrite D in I6.
    destruct I6 as [I6|I6]; [apply I6; by left|congruence]. }
  destruct (can_advance g Hp Hcan D Hcap Hf Ha Hb) as (g2 & Ad & Hp2 & Hc2).
  destruct (sent_advances g g2 Ad) as [E|E].
  - destruct (IH g2 (conj Ad E) Hp2 Hc2) as (g' & R' & L' & C'). exists g'. split; [eapply rtc_transitive; [by apply advances_moves|exact R']|].
    split; [congruence|exact C'].
  - exists g2. split; [by apply advances_moves|]. split; [exact E|exact Hc2].
Qed.
End Ends.
