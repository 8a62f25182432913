(** Files that are closed while the program goes on (C80). *)
From stdpp Require Import gmap relations.
From Coq Require Import NArith ZArith Lia.
From Verif Require Import GoBase Inetdiag Netlink SpecNetlink SpecCompare Cache Saver SpecSaver System SpecSystem SystemInv SystemFiles SystemRefine SystemEnd
  SystemHidden RaceFacts Program SpecProgram ProgramFacts Disk SpecDisk DiskFacts Whole WholeFacts.
From Verif Require EventServer Collector.

Section Closed.
Variables (w : world) (cf : config) (cap : nat) (anon : bytes -> bytes) (line : archival -> bytes) (hline : metadata -> bytes).
Variables (v : Collector.environment) (reps : Z) (on : bool) (marshal : EventServer.flow_event -> option bytes).
Variables (z : bytes -> bytes) (k0 : bytes -> option bytes).
Hypothesis Hlen : forall x, length (anon x) = length x.
Hypothesis Hn : 1 <= nmarsh cf.
Notation sstep := (System.step w cf cap anon line hline).
Notation sreachable := (System.reachable w cf cap anon line hline).
Notation moves := (moves w cf cap anon line hline v reps on marshal).
Notation possible := (possible w cf cap anon line hline v reps on marshal).
Notation whole := (whole w cf cap anon line hline v reps on marshal z).
Notation run_of := (run_of w cf cap anon line hline v reps on marshal z k0).

(** A step keeps the files, if what is created is new. *)
Lemma step_keeps y y' : sstep y y' -> (forall wr p, s_log (y_saver y) !! y_pc y = Some (ACreate wr p) -> y_files y !! wr = None) ->
  forall wr f, y_files y !! wr = Some f -> exists f', y_files y' !! wr = Some f' /\ f_path f' = f_path f /\ (f_open f = false -> f' = f).
Proof.
  intros S Fr wr f F. destruct (step_files w cf cap anon line hline y y' S) as [(wr1 & p1 & C1 & E)|[_ K]].
  - assert (wr <> wr1) by (pose proof (Fr _ _ (proj1 C1)); congruence). exists f. by rewrite E, lookup_insert_ne.
  - pose proof (K wr) as X. rewrite F in X. destruct (y_files y' !! wr) as [f1|]; [|done]. exists f1. destruct X as (P1 & P2 & _). auto.
Qed.
Lemma steps_keep bs y y' : sreachable bs y -> rtc sstep y y' ->
  forall wr f, y_files y !! wr = Some f -> f_open f = false -> y_files y' !! wr = Some f.
Proof.
  intros R H. revert R. induction H as [y|y y1 y2 S _ IH]; intros R wr f F O; [exact F|].
  destruct (step_keeps y y1 S (proj1 (saver_writer_new w cf cap anon line hline Hlen Hn bs y R)) wr f F) as (f' & F' & _ & K).
  rewrite (K O) in F'. apply IH; [eapply rtc_r; [exact R|exact S]|exact F'|exact O].
Qed.
(** What is closed is complete. *)
Lemma closed_complete bs y : all_comparable cf bs -> 1 <= cap -> Forall (parses cf) bs -> fair_order w -> sreachable bs y ->
  forall wr f, y_files y !! wr = Some f -> f_open f = false ->
  exists y', sreachable bs y' /\ y_wg y' = 0 /\ y_files y' !! wr = Some f /\ f_data f = contents anon line hline wr (s_log (message_saver_loop w cf bs)).
Proof.
  intros Hc Hcap Hp Hf R wr f F O.
  destruct (SystemEnd.ends w cf cap anon line hline Hlen Hn bs Hc Hp Hf y Hcap R) as (y' & H & Fin).
  assert (R' : sreachable bs y') by (eapply rtc_transitive; [exact R|exact H]).
  assert (Wg : y_wg y' = 0) by apply Fin. pose proof (steps_keep bs y y' R H wr f F O) as F'.
  exists y'. split; [exact R'|]. split; [exact Wg|]. split; [exact F'|].
  destruct (wait_complete w cf cap anon line hline Hlen Hn bs Hc Hp Hf y' R' Wg) as [_ A]. by apply (A wr f F').
Qed.

(** The same for the process. *)
Lemma move_keeps g g' : possible g -> moves g g' -> forall wr f, y_files (g_sys g) !! wr = Some f ->
  exists f', y_files (g_sys g') !! wr = Some f' /\ f_path f' = f_path f /\ (f_open f = false -> f' = f).
Proof.
  intros P M wr f F. destruct (move_files w cf cap anon line hline v reps on marshal z k0 g g' M) as [[E _]|S]; [exists f; by rewrite E|].
  apply (step_keeps _ _ S); [|exact F]. pose proof (full_reachable w cf cap anon line hline v reps on marshal g P) as R.
  destruct (full_saver g) as (F1 & F2 & _ & F4 & _).
  pose proof (proj1 (saver_writer_new w cf cap anon line hline Hlen Hn (g_sent g) (full g) R)) as N. by rewrite F1, F2, F4 in N.
Qed.
Lemma moves_keep g g' : possible g -> rtc moves g g' -> forall wr f, y_files (g_sys g) !! wr = Some f ->
  exists f', y_files (g_sys g') !! wr = Some f' /\ f_path f' = f_path f /\ (f_open f = false -> f' = f).
Proof.
  intros P H. revert P. induction H as [g|g g1 g2 M _ IH]; intros P wr f F; [eauto|].
  destruct (move_keeps g g1 P M wr f F) as (f1 & F1 & P1 & K1).
  destruct (IH (rtc_r _ _ _ P M) wr f1 F1) as (f2 & F2 & P2 & K2). exists f2. split; [exact F2|]. split; [congruence|].
  intros O. rewrite <- (K1 O). apply K2. by rewrite (K1 O).
Qed.
Lemma whole_moves s s' : rtc whole s s' -> rtc moves s.1 s'.1.
Proof.
  induction 1 as [|a b c H _ IH]; [apply rtc_refl|]. destruct H as [g g' k M C|g k wr f x F O]; cbn [fst] in *; [by eapply rtc_l|exact IH].
Qed.
(** And on disk. *)
Lemma closed_disk g k g' k' : run_of (g, k) -> rtc whole (g, k) (g', k') -> all_comparable cf (g_sent g') ->
  NoDup (paths (s_log (message_saver_loop w cf (g_sent g')))) -> forall wr f, y_files (g_sys g) !! wr = Some f -> f_open f = false ->
  d_file k (f_path f) = Some (z (f_data f)).
Proof.
  intros R H Hc Nd wr f F O.
  assert (R' : run_of (g', k')) by (eapply rtc_transitive; [exact R|exact H]).
  pose proof (run_disk w cf cap anon line hline v reps on marshal z k0 g k R) as D.
  pose proof (run_disk w cf cap anon line hline v reps on marshal z k0 g' k' R') as D'.
  pose proof (disk_sys w cf cap anon line hline z (g_sent g') k0 _ D') as Ry'. cbn [fst] in Ry'.
  destruct (full_saver g) as (_ & _ & _ & F4 & _). destruct (full_saver g') as (_ & _ & _ & F4' & _).
  pose proof (run_possible w cf cap anon line hline v reps on marshal z k0 _ R) as P. cbn [fst] in P. pose proof (whole_moves _ _ H) as M. cbn [fst] in M.
  assert (A : apart (full g)).
  { intros wr1 wr2 f1 f2 F1 F2 E. rewrite F4 in F1, F2.
    destruct (moves_keep g g' P M wr1 f1 F1) as (f1' & F1' & P1 & _). destruct (moves_keep g g' P M wr2 f2 F2) as (f2' & F2' & P2 & _).
    rewrite <- F4' in F1', F2'. apply (paths_unique _ wr1 wr2 (f_path f1') Nd).
    - exact (proj1 (file_prefix w cf cap anon line hline Hlen Hn (g_sent g') Hc (full g') Ry' wr1 f1' F1')).
    - rewrite P1, E, <- P2. exact (proj1 (file_prefix w cf cap anon line hline Hlen Hn (g_sent g') Hc (full g') Ry' wr2 f2' F2')). }
  rewrite <- F4 in F. pose proof (apart_disk w cf cap anon line hline z Hlen Hn (g_sent g) k0 (full g, k) D A wr f F) as Ed. cbn [snd] in Ed. rewrite Ed. f_equal.
  exact (ended_output w cf cap anon line hline z Hlen Hn (g_sent g) k0 (full g, k) D wr f F O).
Qed.
(** From a state in which no compressor of an open file has put anything out, every
    way on of the process is one with the disk. *)
Lemma goes_on s g2 : asleep s -> rtc moves s.1 g2 -> exists k2, rtc whole s (g2, k2) /\ asleep (g2, k2).
Proof.
  intros A0 H. pattern g2. revert H. apply (rtc_ind_r (R := moves)).
  { exists s.2. split; [destruct s; apply rtc_refl|]. by destruct s. }
  clear g2. intros g g' _ M (k & Rk & A). set (k1 := put_out z (g_sys g) (g_sys g') (map_to_list (y_files (g_sys g))) k).
  pose proof (NoDup_fst_map_to_list (y_files (g_sys g))) as Nd.
  exists (at_once (g_sys g) (g_sys g') k1). split.
  - eapply rtc_transitive; [exact Rk|]. eapply rtc_r; [apply (put_out_steps w cf cap anon line hline v reps on marshal z g (g_sys g'))|]. apply wh_move; [exact M|].
    intros wr f f' F F' O O'. apply put_out_done; [exact Nd | by apply elem_of_map_to_list | | exact (A wr f F O)].
    unfold WholeFacts.ends. cbn [fst snd]. by rewrite O, F', O'.
  - intros wr f' F' O'. cbn [fst snd] in *.
    assert (B : forall f, y_files (g_sys g) !! wr = Some f -> f_open f = true -> d_out k1 wr = []).
    { intros f F O. rewrite <- (A wr f F O). cbn [snd].
      assert (E : WholeFacts.ends (g_sys g) (g_sys g') (wr, f) = false) by (unfold WholeFacts.ends; cbn [fst snd]; by rewrite F', O', andb_false_r).
      subst k1. apply elem_of_map_to_list in F. revert Nd F. generalize (map_to_list (y_files (g_sys g))). clear -E.
      induction l as [|x l IH]; intros Nd I; [done|]. cbn [fmap list_fmap] in Nd. apply NoDup_cons in Nd as [N Nd]. cbn [put_out fold_right]. fold (put_out z (g_sys g) (g_sys g') l k).
      apply elem_of_cons in I as [<-|I]; [rewrite E; by apply put_out_other|].
      assert (x.1 <> wr) by (intros <-; apply N; apply elem_of_list_fmap; by exists (x.1, f)).
      destruct (WholeFacts.ends (g_sys g) (g_sys g') x); [|by apply IH]. cbn [flush d_out]. rewrite emits_other by done. by apply IH. }
    destruct (move_files w cf cap anon line hline v reps on marshal z k0 g g' M) as [[E ->]|S]; [rewrite E in F'; by apply (B f')|].
    destruct (step_files w cf cap anon line hline _ _ S) as [(wr0 & p & C & E)|[N K]].
    + rewrite (at_once_create _ _ wr0 p k1 C). cbn [create d_out]. destruct (Nat.eq_dec wr wr0) as [->|Ne]; [apply emits_same|]. rewrite emits_other by done.
      rewrite E, lookup_insert_ne in F' by done. by apply (B f').
    + rewrite at_once_other by exact N. specialize (K wr). unfold kept in K. rewrite F' in K. destruct (y_files (g_sys g) !! wr) as [f|] eqn:F; [|contradiction].
      apply (B f); [done|]. destruct K as (_ & K & _). destruct (f_open f) eqn:O; [done|]. rewrite (K eq_refl) in O'. congruence.
Qed.
End Closed.
