(** The program as a whole: invariants, relation to System.v, progress. *)
From stdpp Require Import gmap relations.
From Coq Require Import NArith ZArith Lia.
From Verif Require Import GoBase Inetdiag Netlink Cache Saver SpecSaver System SpecSystem SystemInv SystemFiles SystemRefine SystemEnd Program SpecProgram.
From Verif Require EventServer SpecEvents EventFacts Collector SpecCollector CollectorFacts SpecClient.

(** More work at the end of the saver's list. *)
Definition plus (J : list job) (y : sys) : sys := with_saver (y_saver y) (y_jobs y ++ J) y.

Section Facts.
Variables (w : world) (cf : config) (cap : nat) (anon : bytes -> bytes) (line : archival -> bytes) (hline : metadata -> bytes).
Variables (v : Collector.environment) (reps : Z) (on : bool) (marshal : EventServer.flow_event -> option bytes).
Notation sstep := (System.step w cf cap anon line hline).
Notation sreachable := (System.reachable w cf cap anon line hline).
Notation work := (work w cf cap anon line hline v reps on).
Notation elsewhere := (elsewhere on marshal).
Notation moves := (moves w cf cap anon line hline v reps on marshal).
Notation possible := (possible w cf cap anon line hline v reps on marshal).
Notation submits := (submits w on).

Lemma exec_plus J a y : exec cap hline a (plus J y) = option_map (plus J) (exec cap hline a y).
Proof.
  destruct a; try reflexivity; cbn [exec plus with_saver y_marsh y_wg].
  - destruct (y_marsh y !! q) as [m|]; [|reflexivity]. destruct (m_closed m); [reflexivity|]. destruct (_ <? cap); reflexivity.
  - destruct (y_marsh y !! q) as [m|]; [|reflexivity]. destruct (m_closed m); reflexivity.
  - destruct (y_wg y); reflexivity.
Qed.

Lemma step_plus J y y' : sstep y y' -> sstep (plus J y) (plus J y').
Proof.
  intros H. destruct H as [y j js view A P E V|y a y' A L E|y q m t ts A M P C|y q m A M P C Cl|y q m wr A M P|y q m c wr raw A M P R
    |y q m c wr e A M P R|y q m c wr A M P|y q m c b wr A M P|y q m c wr A M P].
  - assert (Ej : y_jobs (plus J y) = j :: (js ++ J)) by (cbn; by rewrite E).
    pose proof (st_job w cf cap anon line hline (plus J y) j (js ++ J) view A P Ej V) as S.
    unfold plus at 2. cbn [y_saver y_jobs with_saver]. rewrite <- app_assoc. exact S.
  - pose proof (st_act w cf cap anon line hline (plus J y) a (plus J y') A L) as S. rewrite exec_plus, E in S. exact (S eq_refl).
  - exact (st_take w cf cap anon line hline (plus J y) q m t ts A M P C).
  - pose proof (st_finish w cf cap anon line hline (plus J y) q m A M P C Cl) as S. cbn [y_wg plus with_saver] in S. destruct (y_wg y); exact S.
  - exact (st_close w cf cap anon line hline (plus J y) q m wr A M P).
  - exact (st_anon w cf cap anon line hline (plus J y) q m c wr raw A M P R).
  - exact (st_skip w cf cap anon line hline (plus J y) q m c wr e A M P R).
  - exact (st_render w cf cap anon line hline (plus J y) q m c wr A M P).
  - exact (st_write w cf cap anon line hline (plus J y) q m c b wr A M P).
  - exact (st_newline w cf cap anon line hline (plus J y) q m c wr A M P).
Qed.

(** Conversely, unless it is the added work that is begun. *)
Lemma plus_step J y z : sstep (plus J y) z ->
  (exists y', sstep y y' /\ z = plus J y') \/ (y_jobs y = [] /\ y_pc y = length (s_log (y_saver y)) /\ alive y).
Proof.
  intros H. remember (plus J y) as x eqn:Ex.
  destruct H as [x j js view A P E V|x a y' A L E|x q m t ts A M P C|x q m A M P C Cl|x q m wr A M P|x q m c wr raw A M P R
    |x q m c wr e A M P R|x q m c wr A M P|x q m c b wr A M P|x q m c wr A M P]; subst x.
  - destruct (y_jobs y) as [|j' js'] eqn:Ej; [by right|]. left. cbn [plus y_jobs with_saver] in E. rewrite Ej in E. injection E as -> <-.
    exists (with_saver (run_job w cf view j (y_saver y)).1 ((run_job w cf view j (y_saver y)).2 ++ js') y).
    split; [by apply st_job|]. unfold plus. cbn [y_saver y_jobs with_saver]. by rewrite app_assoc.
  - left. rewrite exec_plus in E. destruct (exec cap hline a y) as [y2|] eqn:E2; [|discriminate E]. injection E as <-.
    exists (with_pc (S (y_pc y)) y2). split; [by eapply st_act|reflexivity].
  - left. eexists. split; [by eapply st_take|reflexivity].
  - left. eexists. split; [by eapply st_finish|]. cbn [y_wg plus with_saver]. by destruct (y_wg y).
  - left. eexists. split; [by eapply st_close|reflexivity].
  - left. eexists. split; [by eapply st_anon|reflexivity].
  - left. eexists. split; [by eapply st_skip|reflexivity].
  - left. eexists. split; [by eapply st_render|reflexivity].
  - left. eexists. split; [by eapply st_write|reflexivity].
  - left. eexists. split; [by eapply st_newline|reflexivity].
Qed.

(** ** Invariants of the process *)
(** All the work of the saver for the blocks sent so far. *)
Definition full (g : prog) : sys :=
  if g_ended g then g_sys g else plus (map JBlock (g_chan g) ++ [JShutdown]) (g_sys g).

Definition inv_chan (g : prog) : Prop :=
  exists rcv, g_sent g = rcv ++ g_chan g /\
    (if g_ended g then g_chan g = [] /\ sreachable rcv (g_sys g)
     else forall rest, sreachable (rcv ++ rest) (plus (map JBlock rest ++ [JShutdown]) (g_sys g))).
Definition within (n : nat) : Prop := reps = 0%Z \/ (Z.of_nat n < reps)%Z.
Definition inv_main (g : prog) : Prop :=
  collected v (g_sent g) /\ (forall i, i < length (g_sent g) -> within i) /\
  g_closed g = (match g_main g with MWait | MExit => true | _ => false end) /\ (g_ended g = true -> g_closed g = true) /\
  length (g_chan g) <= 2 /\
  match g_main g with
  | MLoop n => length (g_sent g) = n
  | MSend n b => length (g_sent g) = n /\ within n /\ SpecCollector.block_of v n b
  | _ => ~ within (length (g_sent g)) \/ EventServer.cancelled (g_srv g) = true
  end.

Lemma outside_keeps_cancelled s s' : EventServer.outside s s' -> EventServer.cancelled s = true -> EventServer.cancelled s' = true.
Proof. intros H. destruct H; cbn; auto. Qed.
Lemma server_cancelled s s' : EventServer.server marshal s s' -> EventServer.cancelled s' = EventServer.cancelled s.
Proof. intros H. destruct H; reflexivity. Qed.

Lemma goes_on_spec n g : goes_on reps n g = true <-> within n /\ EventServer.cancelled (g_srv g) = false.
Proof. unfold goes_on, within. rewrite andb_true_iff, orb_true_iff, Z.eqb_eq, Z.ltb_lt, negb_true_iff. tauto. Qed.

Lemma inv_main_start : inv_main (start cf).
Proof. split; [intros i b H; discriminate H|]. cbn. split; [intros; lia|]. split; [done|]. split; [done|]. split; [lia|done]. Qed.
Lemma inv_main_others g g' : inv_main g -> elsewhere g g' -> inv_main g'.
Proof.
  intros (H1 & H2 & H3 & H4 & H5 & H6) [s O S|s S B C]; (split; [exact H1|]); (split; [exact H2|]); (split; [exact H3|]); (split; [exact H4|]); (split; [exact H5|]).
  - cbn [g_main g_srv with_srv g_sent]. destruct (g_main g); try exact H6; rewrite (server_cancelled _ _ S); exact H6.
  - cbn [g_main g_srv with_srv g_sent]. destruct (g_main g); try exact H6; (destruct H6 as [H6|H6]; [by left|right; by eapply outside_keeps_cancelled]).
Qed.
Lemma inv_main_work g g' : inv_main g -> work g g' -> inv_main g'.
Proof.
  intros (H1 & H2 & H3 & H4 & H5 & H6) W.
  destruct W as [n b c M G C|n b M L|n M G|M|M Wg|b bs (R1 & R2 & R3) C|(R1 & R2 & R3) C Cl|y S E|y e S E Cl L|y e S E Cl];
    unfold inv_main; cbn [g_main g_chan g_closed g_sent g_ended g_srv with_main with_chan with_sys with_srv].
  - rewrite M in H3, H6. split; [exact H1|]. split; [exact H2|]. split; [exact H3|]. split; [exact H4|]. split; [exact H5|]. split; [exact H6|].
    apply goes_on_spec in G. split; [apply G|]. by eapply CollectorFacts.collect_block.
  - rewrite M in H3, H6. destruct H6 as (H6 & H7 & H8). unfold svr_capacity in L. split.
    + intros i x Hx. apply lookup_app_Some in Hx as [Hx|[Hl Hx]]; [by apply H1|]. apply list_lookup_singleton_Some in Hx as [Hi <-].
      replace i with n by lia. exact H8.
    + split; [|split; [exact H3|split; [exact H4|split; rewrite app_length; cbn; lia]]].
      intros i Hi. rewrite app_length in Hi. cbn in Hi. destruct (Nat.eq_dec i n) as [->|]; [exact H7|]. apply H2. lia.
  - rewrite M in H3, H6. split; [exact H1|]. split; [exact H2|]. split; [exact H3|]. split; [exact H4|]. split; [exact H5|].
    rewrite H6. destruct (EventServer.cancelled (g_srv g)) eqn:Ec; [by right|]. left. intros Hw.
    assert (goes_on reps n g = true) by (apply goes_on_spec; done). congruence.
  - rewrite M in H6. split; [exact H1|]. split; [exact H2|]. split; [done|]. split; [done|]. split; [exact H5|exact H6].
  - rewrite M in H3, H6. split; [exact H1|]. split; [exact H2|]. split; [exact H3|]. split; [exact H4|]. split; [exact H5|exact H6].
  - split; [exact H1|]. split; [exact H2|]. split; [exact H3|]. split; [done|]. split; [rewrite C in H5; cbn in H5; lia|exact H6].
  - split; [exact H1|]. split; [exact H2|]. split; [exact H3|]. split; [done|]. split; [exact H5|exact H6].
  - split; [exact H1|]. split; [exact H2|]. split; [exact H3|]. split; [exact H4|]. split; [exact H5|exact H6].
  - split; [exact H1|]. split; [exact H2|]. split; [exact H3|]. split; [exact H4|]. split; [exact H5|exact H6].
  - split; [exact H1|]. split; [exact H2|]. split; [exact H3|]. split; [exact H4|]. split; [exact H5|exact H6].
Qed.

Lemma inv_chan_start : inv_chan (start cf).
Proof. exists []. split; [done|]. cbn [g_ended start]. intros rest. apply rtc_refl. Qed.
Lemma inv_chan_others g g' : inv_chan g -> elsewhere g g' -> inv_chan g'.
Proof. intros H [s O S|s S B C]; exact H. Qed.
Lemma inv_chan_step g y : inv_chan g -> sstep (g_sys g) y -> inv_chan (with_sys (g_ended g) y g).
Proof.
  intros (rcv & E & H) S. exists rcv. split; [exact E|]. cbn [g_ended with_sys g_chan g_sys]. destruct (g_ended g).
  - split; [apply H|]. eapply rtc_r; [apply H|exact S].
  - intros rest. eapply rtc_r; [apply H|]. by apply step_plus.
Qed.
Lemma inv_chan_work g g' : inv_main g -> inv_chan g -> work g g' -> inv_chan g'.
Proof.
  intros I H W.
  destruct W as [n b c M G C|n b M L|n M G|M|M Wg|b bs (R1 & R2 & R3) C|(R1 & R2 & R3) C Cl|y S E|y e S E Cl L|y e S E Cl]; try exact H.
  - destruct H as (rcv & E & H). exists rcv. cbn [g_sent g_chan g_ended g_sys with_main with_chan]. split; [by rewrite E, app_assoc|].
    destruct (g_ended g) eqn:En; [|exact H]. destruct I as (_ & _ & I3 & I4 & _). rewrite M in I3. rewrite (I4 En) in I3. discriminate I3.
  - destruct H as (rcv & E & H). rewrite R1 in H. exists (rcv ++ [b]). cbn [g_sent g_chan g_ended g_sys with_main with_chan with_sys]. split.
    + rewrite E, C, <- app_assoc. reflexivity.
    + intros rest. rewrite <- app_assoc. specialize (H (b :: rest)). cbn [app map] in H |- *. unfold plus in *. cbn [y_saver y_jobs next_job with_saver] in *.
      rewrite R2 in H. exact H.
  - destruct H as (rcv & E & H). rewrite R1 in H. exists rcv. cbn [g_sent g_chan g_ended g_sys with_main with_chan with_sys]. split; [exact E|].
    split; [exact C|]. specialize (H []). rewrite app_nil_r in H. unfold plus in H. cbn [map app] in H. rewrite R2 in H. exact H.
  - by apply inv_chan_step.
  - exact (inv_chan_step g y H S).
Qed.

Lemma invs g : possible g -> inv_main g /\ inv_chan g.
Proof.
  revert g. apply (rtc_ind_r (R := moves) (fun g => inv_main g /\ inv_chan g)).
  - split; [apply inv_main_start|apply inv_chan_start].
  - intros g g' _ [g2 _ W|g2 _ O] [H1 H2].
    + split; [by eapply inv_main_work|by eapply inv_chan_work].
    + split; [by eapply inv_main_others|by eapply inv_chan_others].
Qed.

(** The saver with its marshallers is in a state System.v allows for the blocks
    sent so far, and for any continuation of them. *)
Lemma full_reachable g : possible g -> sreachable (g_sent g) (full g).
Proof.
  intros H. destruct (invs g H) as [_ (rcv & E & S)]. unfold full. rewrite E. destruct (g_ended g).
  - destruct S as [-> S]. rewrite app_nil_r. exact S.
  - apply S.
Qed.
Lemma full_saver g : y_saver (full g) = y_saver (g_sys g) /\ y_pc (full g) = y_pc (g_sys g) /\ y_marsh (full g) = y_marsh (g_sys g) /\
  y_files (full g) = y_files (g_sys g) /\ y_wg (full g) = y_wg (g_sys g) /\ y_panic (full g) = y_panic (g_sys g).
Proof. unfold full. destruct (g_ended g); repeat split. Qed.

(** ** The event server *)
Lemma server_possible g : possible g -> on = true -> EventServer.reachable marshal (g_srv g).
Proof.
  intros Hp Hon. revert g Hp. apply (rtc_ind_r (R := moves) (fun g => EventServer.reachable marshal (g_srv g))); [apply rtc_refl|].
  intros g g' _ [g2 (R1 & R2 & R3) W|g2 (R1 & R2 & R3) O] H.
  - destruct W as [n b c M G C|n b M L|n M G|M|M Wg|b bs (R4 & R5 & R6) C|(R4 & R5 & R6) C Cl|y S E|y e S E Cl L|y e S E Cl]; try exact H.
    + cbn. eapply rtc_r; [exact H|]. apply EventServer.by_outside; [exact R2|]. by apply (EventServer.o_submit).
    + cbn. eapply rtc_r; [exact H|]. apply EventServer.by_outside; [exact R2|]. by apply (EventServer.o_panic _ e).
  - destruct O as [s O S|s S B C]; cbn.
    + eapply rtc_r; [exact H|]. by apply EventServer.by_server.
    + eapply rtc_r; [exact H|]. by apply EventServer.by_outside.
Qed.

Lemma submits_spec y y' : sstep y y' ->
  (executed y' = executed y /\ submits y y' = None) \/
  (exists a, executed y' = executed y ++ [a] /\ submits y y' = if on then event_sent (uuid_prefix w) a else None).
Proof.
  intros H. unfold Program.submits.
  assert (Q : y_pc y' = y_pc y -> (if y_pc y' =? y_pc y then None else if on then match s_log (y_saver y) !! y_pc y with Some a => event_sent (uuid_prefix w) a | None => None end else None) = None)
    by (intros ->; by rewrite Nat.eqb_refl).
  destruct H as [y j js view A P E V|y a y' A L E|y q m t ts A M P C|y q m A M P C Cl|y q m wr A M P|y q m c wr raw A M P R
    |y q m c wr e A M P R|y q m c wr A M P|y q m c b wr A M P|y q m c wr A M P].
  2:{ right. exists a. split; [by eapply executed_act|]. destruct (exec_saver _ _ _ _ _ E) as (_ & _ & E3 & _). cbn [y_pc with_pc].
      destruct (Nat.eqb_spec (S (y_pc y)) (y_pc y)) as [X|_]; [lia|]. by rewrite L. }
  all: left; (split; [|apply Q]).
  all: try reflexivity.
  - by apply executed_job.
  - destruct (y_wg y); reflexivity.
  - destruct (y_wg y); reflexivity.
Qed.

Lemma submitted_reports g : possible g -> on = true ->
  SpecEvents.submitted (EventServer.log (g_srv g)) = map SpecClient.event_of (reports (uuid_prefix w) (executed (g_sys g))).
Proof.
  intros Hp Hon. revert g Hp. apply (rtc_ind_r (R := moves) (fun g => SpecEvents.submitted (EventServer.log (g_srv g)) = map SpecClient.event_of (reports (uuid_prefix w) (executed (g_sys g))))).
  { cbn. unfold executed. reflexivity. }
  intros g g' _ [g2 (R1 & R2 & R3) W|g2 (R1 & R2 & R3) O] H.
  - assert (X : forall y, sstep (g_sys g) y -> map SpecClient.event_of (reports (uuid_prefix w) (executed y)) =
      map SpecClient.event_of (reports (uuid_prefix w) (executed (g_sys g))) ++ match submits (g_sys g) y with Some e => [e] | None => [] end).
    { intros y S. destruct (submits_spec _ _ S) as [[E ->]|(a & E & ->)]; rewrite E; [by rewrite app_nil_r|].
      unfold reports. rewrite omap_app, map_app, Hon. f_equal. destruct a; reflexivity. }
    destruct W as [n b c M G C|n b M L|n M G|M|M Wg|b bs (R4 & R5 & R6) C|(R4 & R5 & R6) C Cl|y S E|y e S E Cl L|y e S E Cl]; try exact H.
    + cbn [g_srv g_sys with_sys]. rewrite (X _ S), E, app_nil_r. exact H.
    + cbn [g_srv g_sys with_sys with_srv EventServer.log EventServer.add_log EventServer.set_buf]. rewrite (X _ S), E, EventFacts.submitted_snoc, H. reflexivity.
  - destruct O as [s O S|s S B C]; cbn [g_srv g_sys with_srv]; rewrite <- H.
    + destruct S; cbn [EventServer.log EventServer.add_log EventServer.set_np EventServer.set_buf EventServer.set_tasks EventServer.set_clients EventServer.set_sp EventServer.set_cp EventServer.set_lclosed EventServer.set_closed];
        rewrite ?EventFacts.submitted_snoc, ?app_nil_r; reflexivity.
    + destruct S; cbn [EventServer.log EventServer.add_log EventServer.set_np EventServer.set_buf EventServer.set_next EventServer.set_sp EventServer.set_cancelled]; try reflexivity.
      cbn in B. apply (f_equal length) in B. rewrite app_length in B. cbn in B. lia.
Qed.

(** As long as ctx is not done nothing closes the channel of the server. *)
Lemma not_closed g : possible g -> EventServer.cancelled (g_srv g) = false -> EventServer.closed (g_srv g) = false /\ EventServer.crashed (g_srv g) = false.
Proof.
  intros Hp Hc. assert (D : on = true \/ on = false) by (destruct on; auto). destruct D as [Hon|Hon].
  - destruct (EventFacts.close_ok marshal (g_srv g)) as [A0 A]; [by apply server_possible|].
    destruct (EventServer.cp (g_srv g)).
    + destruct A as (A1 & _). split; [exact A1|]. destruct (EventServer.crashed (g_srv g)) eqn:Ec; [|done]. specialize (A0 eq_refl). congruence.
    + destruct A as (A1 & _). congruence.
    + destruct A as (A1 & _). congruence.
    + destruct A as (A1 & _). congruence.
  - clear Hc. revert g Hp. apply (rtc_ind_r (R := moves) (fun g => EventServer.closed (g_srv g) = false /\ EventServer.crashed (g_srv g) = false)); [done|].
    intros g g' _ [g2 (R1 & R2 & R3) W|g2 (R1 & R2 & R3) O] H.
    + destruct W as [n b c M G C|n b M L|n M G|M|M Wg|b bs (R4 & R5 & R6) C|(R4 & R5 & R6) C Cl|y S E|y e S E Cl L|y e S E Cl]; try exact H.
      destruct H as [H _]. congruence.
    + destruct O as [s O S|s S B C]; [congruence|]. cbn [g_srv with_srv]. split; [|exact C]. destruct S; cbn; try apply H.
Qed.
End Facts.
