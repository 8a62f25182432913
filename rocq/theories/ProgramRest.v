(** The whole process between two polls. *)
From stdpp Require Import gmap relations.
From Coq Require Import NArith ZArith Lia.
From Verif Require Import GoBase Inetdiag Netlink Cache Saver SpecSaver System SpecSystem SpecRest SystemInv SystemFiles SystemRefine SystemEnd SystemHidden
  SaverCatchUp Program SpecProgram ProgramFacts ProgramEnd.
From Verif Require EventServer SpecEvents EventFacts Collector SpecCollector CollectorFacts.

Section Rest.
Variables (w : world) (cf : config) (cap : nat) (anon : bytes -> bytes) (line : archival -> bytes) (hline : metadata -> bytes).
Variables (v : Collector.environment) (reps : Z) (on : bool) (marshal : EventServer.flow_event -> option bytes).
Hypothesis Hlen : forall x, length (anon x) = length x.
Hypothesis Hn : 1 <= nmarsh cf.
Notation sstep := (System.step w cf cap anon line hline).
Notation work := (work w cf cap anon line hline v reps on).
Notation elsewhere := (elsewhere on marshal).
Notation moves := (moves w cf cap anon line hline v reps on marshal).
Notation possible := (possible w cf cap anon line hline v reps on marshal).
Notation advances := (advances w cf cap anon line hline v reps on marshal).

(** The saver or a marshaller goes on (after any steps of the event server and
    its clients) while main stays where it is. *)
Definition meanwhile (g g' : prog) : Prop := advances g g' /\ g_main g' = g_main g.
(** Neither can. *)
Definition settled (g : prog) : Prop := forall g', ~ meanwhile g g'.

Lemma others_lift a b : rtc elsewhere a b -> EventServer.crashed (g_srv b) = false -> (g_main a <> MExit /\ alive (g_sys a)) -> rtc (others on marshal) a b.
Proof.
  induction 1 as [a|a b c St Hr' IH']; intros Hb' Ha'; [apply rtc_refl|].
  assert (Hx : g_main b <> MExit /\ alive (g_sys b)) by (destruct St; exact Ha'). specialize (IH' Hb' Hx).
  assert (Hcb : EventServer.crashed (g_srv b) = false).
  { clear -IH' Hb'. inversion IH' as [x|x y z [Rx _] _]; subst; [exact Hb'|apply Rx]. }
  eapply rtc_l; [|exact IH']. split; [|exact St]. split; [apply Ha'|]. split; [|apply Ha'].
  destruct St as [s On S|s S B C]; cbn in Hcb; destruct S; cbn in *; try assumption; congruence.
Qed.
(** A step of the saver or a marshaller can be made, if need be after the event
    server has made room. *)
Lemma sys_goes_on g y : possible g -> running g -> EventServer.cancelled (g_srv g) = false -> sstep (g_sys g) y ->
  exists g', meanwhile g g' /\ EventServer.cancelled (g_srv g') = false.
Proof.
  intros Hp Hr Hcan S. pose proof Hr as (Hr1 & Hr2 & Hr3).
  destruct (not_closed w cf cap anon line hline v reps on marshal g Hp Hcan) as [Ncl _].
  assert (K : forall g', work g g' -> g_main g' = g_main g -> EventServer.cancelled (g_srv g') = EventServer.cancelled (g_srv g) -> exists g', meanwhile g g' /\ EventServer.cancelled (g_srv g') = false).
  { intros g' W M C. exists g'. split; [|congruence]. split; [|exact M]. exists g. split; [apply rtc_refl|]. split; [exact Hr|exact W]. }
  destruct (submits w on (g_sys g) y) as [e|] eqn:E; [|by eapply K; [by apply k_sys|done|done]].
  destruct (decide (length (EventServer.buf (g_srv g)) < EventServer.capacity)) as [L|L]; [by eapply K; [by eapply k_event|done|done]|].
  assert (Hon : on = true). { unfold submits in E. destruct (_ =? _); [discriminate E|]. by destruct on. }
  pose proof (server_possible w cf cap anon line hline v reps on marshal g Hp Hon) as Rs.
  destruct (makes_room marshal (g_srv g)) as (s' & R' & L' & F1 & F2 & F3); [by apply (not_ended marshal)|exact Hcan|intros B; rewrite B in L; cbn in L; unfold EventServer.capacity in L; lia|].
  assert (Lb : length (EventServer.buf (g_srv g)) <= EventServer.capacity).
  { clear -Rs. revert Rs. generalize (g_srv g). apply (EventFacts.invariant marshal (fun s => length (EventServer.buf s) <= EventServer.capacity)); [cbn; lia|].
    intros s s' _ A [s1 _ H|s1 _ H]; destruct H; cbn; try exact A; try (rewrite H0 in A; cbn in A; lia). rewrite app_length. cbn. lia. }
  eexists. split; [split|].
  - exists (with_srv s' g). split; [|split].
    + apply others_lift; [by apply lift_server|cbn; congruence|done].
    + split; [exact Hr1|]. split; [cbn; congruence|exact Hr3].
    + eapply (k_event w cf cap anon line hline v reps on (with_srv s' g) y e); [exact S|exact E|cbn; congruence|cbn; lia].
  - reflexivity.
  - cbn. congruence.
Qed.

Section From.
Variable g : prog.
Hypothesis Hp : possible g.
Hypothesis Hcan : EventServer.cancelled (g_srv g) = false.
Variable n : nat.
Hypothesis Hm : g_main g = MLoop n.
Hypothesis Hcap : 1 <= cap.
Hypothesis Hf : fair_order w.
Hypothesis Hc : all_comparable cf (g_sent g).
Hypothesis Hpar : Forall (parses cf) (g_sent g).
Lemma settled_or : (g_chan g = [] /\ y_jobs (g_sys g) = [] /\ g_ended g = false /\ calm (full g)) \/
  exists g', meanwhile g g' /\ EventServer.cancelled (g_srv g') = false.
Proof.
  pose proof (full_reachable w cf cap anon line hline v reps on marshal g Hp) as R.
  destruct (invs w cf cap anon line hline v reps on marshal g Hp) as [(_ & _ & I3 & I4 & _) _]. rewrite Hm in I3.
  assert (En : g_ended g = false). { destruct (g_ended g); [|done]. rewrite (I4 eq_refl) in I3. discriminate I3. }
  destruct (not_closed w cf cap anon line hline v reps on marshal g Hp Hcan) as [_ Hcr].
  assert (Hr : running g) by (eapply keeps_running; eauto; rewrite Hm; discriminate).
  pose proof Hr as (Hr1 & Hr2 & Hr3).
  destruct (full_saver g) as (F1 & F2 & F3 & _).
  destruct (calm_or_step w cf cap anon line hline Hlen Hn (g_sent g) Hc Hcap Hpar Hf (full g) R) as [C|(y' & St & T)].
  - destruct C as (B & Pc & J). rewrite F1, F2 in Pc.
    destruct (y_jobs (g_sys g)) as [|j js] eqn:Ej.
    2:{ right. eapply sys_goes_on; [exact Hp|exact Hr|exact Hcan|].
        eapply (st_job _ _ _ _ _ _ (g_sys g) j js (current (y_heap (g_sys g)))); [exact Hr3|exact Pc|exact Ej|]. intros c. apply SystemViews.sees_refl. }
    destruct (g_chan g) as [|b bs] eqn:Ec.
    + left. split; [done|]. split; [done|]. split; [done|]. split; [exact B|]. split; [by rewrite F1, F2|exact J].
    + right. eexists. split; [split|].
      * exists g. split; [apply rtc_refl|]. split; [exact Hr|]. eapply k_block; [|exact Ec]. split; [exact En|]. by split.
      * reflexivity.
      * exact Hcan.
  - unfold full in St. rewrite En in St. apply plus_step in St as [(y & S & _)|(J & P & A)]; [right; by eapply sys_goes_on|].
    destruct (g_chan g) as [|b bs] eqn:Ec.
    + destruct (all_or_some (y_marsh (g_sys g))) as [B|(q & m & M & B)].
      * left. split; [done|]. split; [exact J|]. split; [done|]. split; [by rewrite F3|]. split; [by rewrite F1, F2|].
        unfold full. rewrite En, Ec. cbn [plus y_jobs with_saver]. by rewrite J.
      * right. destruct (busy_alone w cf cap anon line hline Hlen (g_sys g) q m A M B) as (y2 & S2 & _). by eapply sys_goes_on.
    + right. eexists. split; [split|].
      * exists g. split; [apply rtc_refl|]. split; [exact Hr|]. eapply k_block; [|exact Ec]. split; [exact En|]. by split.
      * reflexivity.
      * exact Hcan.
Qed.
Lemma settled_state : settled g -> forall wr, match y_files (g_sys g) !! wr with
  | Some f => f_data f = contents anon line hline wr (s_log (message_saver_loop w cf (g_sent g))) /\
              ACreate wr (f_path f) ∈ s_log (message_saver_loop w cf (g_sent g))
  | None => forall path, ACreate wr path ∉ s_log (message_saver_loop w cf (g_sent g))
  end.
Proof.
  intros Q wr. destruct settled_or as [(Ec & Ej & En & C)|(g' & M & _)]; [|by destruct (Q g')].
  pose proof (full_reachable w cf cap anon line hline v reps on marshal g Hp) as R.
  destruct (full_saver g) as (_ & _ & _ & F4 & _).
  pose proof (as_if_shut_down w cf cap anon line hline Hlen Hn (g_sent g) Hc Hcap Hpar Hf (full g) R (calm_rest w cf cap anon line hline (full g) C) wr) as H.
  assert (E : received (g_sent g) (full g) = g_sent g).
  { unfold received, full. rewrite En, Ec. cbn [plus y_jobs with_saver map app]. rewrite Ej. cbn. rewrite Nat.sub_0_r. apply firstn_all. }
  rewrite E, F4 in H. exact H.
Qed.
Lemma nothing_left : settled g -> g_chan g = [] /\ y_jobs (g_sys g) = [] /\ y_pc (g_sys g) = length (s_log (y_saver (g_sys g))) /\
  forall q m, y_marsh (g_sys g) !! q = Some m -> busy m = false.
Proof.
  intros Q. destruct settled_or as [(Ec & Ej & En & B & P & _)|(g' & M & _)]; [|by destruct (Q g')].
  destruct (full_saver g) as (F1 & F2 & F3 & _). rewrite F1, F2 in P. rewrite F3 in B. auto.
Qed.
End From.

Lemma meanwhile_sent g g' n : g_main g = MLoop n -> meanwhile g g' -> g_sent g' = g_sent g.
Proof.
  intros Hm ((h & O & _ & W) & M). pose proof (others_keep on marshal g h O) as Eh.
  assert (E1 : g_main h = g_main g) by (rewrite Eh; reflexivity). assert (E2 : g_sent h = g_sent g) by (rewrite Eh; reflexivity).
  rewrite <- E2. destruct W; try reflexivity; congruence.
Qed.
(** Nothing to do and nothing to receive. *)
Lemma idle_settled g n : possible g -> g_main g = MLoop n -> g_chan g = [] -> y_jobs (g_sys g) = [] ->
  y_pc (g_sys g) = length (s_log (y_saver (g_sys g))) -> (forall q m, y_marsh (g_sys g) !! q = Some m -> busy m = false) -> settled g.
Proof.
  intros Hp Hm Ec Ej P B g' ((h & O & R & W) & M). pose proof (others_keep on marshal g h O) as Eh.
  assert (E1 : g_main h = g_main g) by (rewrite Eh; reflexivity). assert (E2 : g_chan h = []) by (rewrite Eh; exact Ec).
  assert (E3 : g_sys h = g_sys g) by (rewrite Eh; reflexivity). assert (E4 : g_closed h = g_closed g) by (rewrite Eh; reflexivity).
  destruct (invs w cf cap anon line hline v reps on marshal g Hp) as [(_ & _ & I3 & _) _]. rewrite Hm in I3.
  assert (K : forall y, ~ sstep (g_sys g) y).
  { intros y S. clear -S Ej P B. destruct S as [y j js view A P' J V|y a y' A L E|y q m t ts A M P' C|y q m A M P' C Cl|y q m wr A M P'|y q m c wr raw A M P' R
      |y q m c wr e A M P' R|y q m c wr A M P'|y q m c b wr A M P'|y q m c wr A M P']; [congruence|apply lookup_lt_Some in L; lia|..].
    all: specialize (B q m M); unfold busy in B; rewrite P' in B; try rewrite C in B; congruence. }
  rewrite <- E3 in K. destruct W; cbn in M; try congruence; by eapply K; eauto.
Qed.
Lemma settles g n : 1 <= cap -> fair_order w -> possible g -> EventServer.cancelled (g_srv g) = false -> g_main g = MLoop n ->
  all_comparable cf (g_sent g) -> Forall (parses cf) (g_sent g) ->
  exists g', rtc meanwhile g g' /\ settled g' /\ possible g' /\ EventServer.cancelled (g_srv g') = false /\ g_main g' = g_main g /\ g_sent g' = g_sent g.
Proof.
  intros Hcap Hf. induction (round_acc w cf cap anon line hline v reps on marshal g) as [g _ IH]. intros Hp Hcan Hm Hc Hpar.
  destruct (settled_or g Hp Hcan n Hm Hcap Hf Hc Hpar) as [(Ec & Ej & En & C)|(g' & M & C)].
  - exists g. split; [apply rtc_refl|]. split; [|done]. destruct C as (B & P & _). destruct (full_saver g) as (F1 & F2 & F3 & _).
    rewrite F1, F2 in P. rewrite F3 in B. by eapply idle_settled.
  - pose proof (meanwhile_sent g g' n Hm M) as Es.
    destruct (IH g' (conj (proj1 M) Es)) as (g2 & R & Q & P2 & C2 & M2 & S2).
    + eapply rtc_transitive; [exact Hp|]. apply advances_moves. apply M.
    + exact C.
    + by rewrite (proj2 M).
    + by rewrite Es.
    + by rewrite Es.
    + exists g2. split; [eapply rtc_l; [exact M|exact R]|]. split; [exact Q|]. split; [exact P2|]. split; [exact C2|]. destruct M as [_ M]. split; congruence.
Qed.
Lemma no_endless (f : nat -> prog) n : g_main (f 0) = MLoop n -> ~ (forall k, meanwhile (f k) (f (S k))).
Proof.
  intros H0 H. apply (no_stall w cf cap anon line hline v reps on marshal f). intros k.
  assert (Hk : g_main (f k) = MLoop n). { induction k as [|k IH]; [exact H0|]. by rewrite (proj2 (H k)). }
  split; [apply H|]. by eapply meanwhile_sent.
Qed.
End Rest.
