(** The whole program with its files on disk: relation to Program.v and Disk.v. *)
From stdpp Require Import gmap relations.
From Coq Require Import NArith ZArith Lia.
From Verif Require Import GoBase Inetdiag Netlink SpecNetlink RecordFacts SpecCompare Snapshot SpecSnapshot Cache Saver SpecSaver System SpecSystem
  SystemHidden SpecRecovered SpecPipeline PipelineFacts SaverSteps SaverHistory SaverFiles Program SpecProgram ProgramFacts Disk DiskFacts Whole.
From Verif Require EventServer Collector.

Section Facts.
Variables (w : world) (cf : config) (cap : nat) (anon : bytes -> bytes) (line : archival -> bytes) (hline : metadata -> bytes).
Variables (v : Collector.environment) (reps : Z) (on : bool) (marshal : EventServer.flow_event -> option bytes).
Variable (z : bytes -> bytes).
Variable (k0 : bytes -> option bytes).
Notation sstep := (System.step w cf cap anon line hline).
Notation work := (work w cf cap anon line hline v reps on).
Notation moves := (moves w cf cap anon line hline v reps on marshal).
Notation possible := (possible w cf cap anon line hline v reps on marshal).
Notation whole := (whole w cf cap anon line hline v reps on marshal z).
Notation run_of := (run_of w cf cap anon line hline v reps on marshal z k0).
Notation dstep := (dstep w cf cap anon line hline z).
Notation dreach rcv := (disk_reachable w cf cap anon line hline z rcv k0).

(** The process alone. *)
Lemma run_possible s : run_of s -> possible s.1.
Proof.
  intros R0. pattern s. revert R0. apply (rtc_ind_r (R := whole)); [apply rtc_refl|]. clear s. intros s s' R H IH.
  destruct H as [g g' k M C|g k wr f x F O]; [|exact IH]. cbn in *. eapply rtc_r; [exact IH|exact M].
Qed.

Definition closing (y y' : sys) (k : disk) : Prop :=
  forall wr f f', y_files y !! wr = Some f -> y_files y' !! wr = Some f' -> f_open f = true -> f_open f' = false -> d_out k wr = z (f_data f).

Lemma dstep_plus J y y' k : sstep y y' -> closing y y' k -> dstep (plus J y, k) (plus J y', at_once y y' k).
Proof. intros S C. exact (ds_run w cf cap anon line hline z (plus J y) (plus J y') k (step_plus w cf cap anon line hline J y y' S) C). Qed.

Lemma at_once_still y k : at_once y y k = k.
Proof. unfold at_once. destruct (_ !! _) as [[]|]; try reflexivity. destruct (Nat.eqb_spec (y_pc y) (S (y_pc y))) as [X|_]; [lia|reflexivity]. Qed.
Lemma at_once_next j y k : at_once y (next_job j y) k = k.
Proof. unfold at_once. cbn [next_job y_pc with_saver]. destruct (_ !! _) as [[]|]; try reflexivity. destruct (Nat.eqb_spec (y_pc y) (S (y_pc y))) as [X|_]; [lia|reflexivity]. Qed.

Definition inv_disk (s : prog * disk) : Prop :=
  exists rcv, g_sent s.1 = rcv ++ g_chan s.1 /\
    (if g_ended s.1 then g_chan s.1 = [] /\ dreach rcv (g_sys s.1, s.2)
     else forall rest, dreach (rcv ++ rest) (plus (map JBlock rest ++ [JShutdown]) (g_sys s.1), s.2)).

Lemma inv_disk_step g k y : inv_disk (g, k) -> sstep (g_sys g) y -> closing (g_sys g) y k ->
  inv_disk (with_sys (g_ended g) y g, at_once (g_sys g) y k).
Proof.
  intros (rcv & E & H) S C. exists rcv. cbn [fst snd] in *. split; [exact E|]. cbn [g_ended with_sys g_chan g_sys]. destruct (g_ended g).
  - split; [apply H|]. eapply rtc_r; [apply H|]. by apply ds_run.
  - intros rest. eapply rtc_r; [apply H|]. by apply dstep_plus.
Qed.

Lemma inv_disk_work g g' k : inv_main v reps g -> inv_disk (g, k) -> work g g' -> closing (g_sys g) (g_sys g') k ->
  inv_disk (g', at_once (g_sys g) (g_sys g') k).
Proof.
  intros I H W Cl0.
  destruct W as [n b c M G C|n b M L|n M G|M|M Wg|b bs (R1 & R2 & R3) C|(R1 & R2 & R3) C Cl|y S E|y e S E Cl L|y e S E Cl];
    cbn [g_sys with_main with_chan with_srv] in *; rewrite ?at_once_still; try exact H.
  - destruct H as (rcv & E & H). exists rcv. cbn [g_sent g_chan g_ended g_sys with_main with_chan fst snd] in *. split; [by rewrite E, app_assoc|].
    destruct (g_ended g) eqn:En; [|exact H]. destruct I as (_ & _ & I3 & I4 & _). rewrite M in I3. rewrite (I4 En) in I3. discriminate I3.
  - destruct H as (rcv & E & H). cbn [fst snd] in *. rewrite R1 in H. exists (rcv ++ [b]). cbn [g_sent g_chan g_ended g_sys with_main with_chan with_sys fst snd].
    rewrite at_once_next. split.
    + rewrite E, C, <- app_assoc. reflexivity.
    + intros rest. rewrite <- app_assoc. specialize (H (b :: rest)). cbn [app map] in H |- *. unfold plus in *. cbn [y_saver y_jobs next_job with_saver] in *.
      rewrite R2 in H. exact H.
  - destruct H as (rcv & E & H). cbn [fst snd] in *. rewrite R1 in H. exists rcv. cbn [g_sent g_chan g_ended g_sys with_main with_chan with_sys fst snd].
    rewrite at_once_next. split; [exact E|].
    split; [exact C|]. specialize (H []). rewrite app_nil_r in H. unfold plus in H. cbn [map app] in H. rewrite R2 in H. exact H.
  - by apply inv_disk_step.
  - exact (inv_disk_step g k y H S Cl0).
Qed.

Lemma run_inv s : run_of s -> inv_disk s.
Proof.
  intros R0. pattern s. revert R0. apply (rtc_ind_r (R := whole)).
  { exists []. split; [done|]. cbn [fst snd g_ended start]. intros rest. apply rtc_refl. }
  clear s. intros s s' R H IH. destruct H as [g g' k [g2 _ W|g2 _ O] C|g k wr f x F O].
  - eapply inv_disk_work; [|exact IH|exact W|exact C]. apply (invs w cf cap anon line hline v reps on marshal g). exact (run_possible _ R).
  - destruct O as [s O S|s S B Cr]; cbn [g_sys with_srv]; rewrite at_once_still; exact IH.
  - destruct IH as (rcv & E & H). exists rcv. cbn [fst snd] in *. split; [exact E|]. destruct (g_ended g).
    + split; [apply H|]. eapply rtc_r; [apply H|]. by apply ds_flush.
    + intros rest. eapply rtc_r; [apply H|]. exact (ds_flush w cf cap anon line hline z (plus _ (g_sys g)) k wr f x F O).
Qed.

Lemma run_disk g k : run_of (g, k) -> dreach (g_sent g) (full g, k).
Proof.
  intros R. destruct (run_inv _ R) as (rcv & E & S). cbn [fst snd] in *. unfold full. rewrite E. destruct (g_ended g).
  - destruct S as [-> S]. rewrite app_nil_r. exact S.
  - apply S.
Qed.

(** Conversely: whatever the process does, it can do with a disk on which every
    compressor puts everything out at its end. *)
Definition asleep (s : prog * disk) : Prop := forall wr f, y_files (g_sys s.1) !! wr = Some f -> f_open f = true -> d_out s.2 wr = [].
Definition ends (y y' : sys) (x : nat * file) : bool :=
  f_open x.2 && match y_files y' !! x.1 with Some f' => negb (f_open f') | None => false end.
Definition put_out (y y' : sys) (l : list (nat * file)) (k : disk) : disk :=
  fold_right (fun x k => if ends y y' x then flush x.1 (f_path x.2) (z (f_data x.2)) k else k) k l.

Lemma put_out_other y y' l k wr : wr ∉ l.*1 -> d_out (put_out y y' l k) wr = d_out k wr.
Proof.
  induction l as [|x l IH]; [done|]. cbn [fmap list_fmap put_out fold_right]. intros N. apply not_elem_of_cons in N as [N1 N2].
  fold (put_out y y' l k). destruct (ends y y' x); [|by apply IH]. cbn [flush d_out]. rewrite emits_other by done. by apply IH.
Qed.
Lemma put_out_done y y' l k wr f : NoDup l.*1 -> (wr, f) ∈ l -> ends y y' (wr, f) = true -> d_out k wr = [] -> d_out (put_out y y' l k) wr = z (f_data f).
Proof.
  induction l as [|x l IH]; intros Nd I E D; [by apply elem_of_nil in I|]. cbn [fmap list_fmap] in Nd. apply NoDup_cons in Nd as [N Nd].
  cbn [put_out fold_right]. fold (put_out y y' l k). apply elem_of_cons in I as [<-|I].
  - rewrite E. cbn [flush d_out fst snd]. rewrite emits_same, put_out_other by exact N. by rewrite D.
  - assert (x.1 <> wr) by (intros <-; apply N; apply elem_of_list_fmap; by exists (x.1, f)).
    destruct (ends y y' x); [|by apply IH]. cbn [flush d_out]. rewrite emits_other by done. by apply IH.
Qed.
Lemma put_out_steps g y' k : rtc whole (g, k) (g, put_out (g_sys g) y' (map_to_list (y_files (g_sys g))) k).
Proof.
  assert (G : forall l, (forall x, x ∈ l -> y_files (g_sys g) !! x.1 = Some x.2) -> rtc whole (g, k) (g, put_out (g_sys g) y' l k)).
  { induction l as [|x l IH]; intros A; [apply rtc_refl|]. cbn [put_out fold_right]. fold (put_out (g_sys g) y' l k). destruct (ends (g_sys g) y' x) eqn:E.
    - eapply rtc_r; [apply IH; intros x' I; apply A; by apply elem_of_cons; right|]. apply wh_flush; [apply A, elem_of_list_here|].
      unfold ends in E. by apply andb_true_iff in E as [E _].
    - apply IH. intros x' I. apply A. by apply elem_of_cons; right. }
  apply G. intros [i f] I. by apply elem_of_map_to_list in I.
Qed.
Lemma move_files g g' : moves g g' -> (y_files (g_sys g') = y_files (g_sys g) /\ forall k, at_once (g_sys g) (g_sys g') k = k) \/ sstep (g_sys g) (g_sys g').
Proof.
  intros [g2 _ W|g2 _ O].
  - destruct W as [n b c M G C|n b M L|n M G|M|M Wg|b bs (R1 & R2 & R3) C|(R1 & R2 & R3) C Cl|y S E|y e S E Cl L|y e S E Cl];
      first [by right | left; split; [reflexivity|]; intros k; first [apply at_once_still | apply at_once_next]].
  - left. destruct O as [s O S|s S B C]; (split; [reflexivity|]); intros k; apply at_once_still.
Qed.
Lemma has_disk g : possible g -> exists k, run_of (g, k) /\ asleep (g, k).
Proof.
  intros R0. pattern g. revert R0. apply (rtc_ind_r (R := moves)).
  { exists (mkdisk k0 (fun _ => [])). split; [apply rtc_refl|]. done. }
  clear g. intros g g' R M (k & Rk & A). set (k1 := put_out (g_sys g) (g_sys g') (map_to_list (y_files (g_sys g))) k).
  pose proof (NoDup_fst_map_to_list (y_files (g_sys g))) as Nd.
  exists (at_once (g_sys g) (g_sys g') k1). split.
  - eapply rtc_transitive; [exact Rk|]. eapply rtc_r; [apply (put_out_steps g (g_sys g'))|]. apply wh_move; [exact M|].
    intros wr f f' F F' O O'. apply put_out_done; [exact Nd | by apply elem_of_map_to_list | | exact (A wr f F O)].
    unfold ends. cbn [fst snd]. by rewrite O, F', O'.
  - intros wr f' F' O'. cbn [fst snd] in *.
    assert (B : forall f, y_files (g_sys g) !! wr = Some f -> f_open f = true -> d_out k1 wr = []).
    { intros f F O. rewrite <- (A wr f F O). cbn [snd].
      assert (E : ends (g_sys g) (g_sys g') (wr, f) = false) by (unfold ends; cbn [fst snd]; by rewrite F', O', andb_false_r).
      subst k1. apply elem_of_map_to_list in F. revert Nd F. generalize (map_to_list (y_files (g_sys g))). clear -E.
      induction l as [|x l IH]; intros Nd I; [done|]. cbn [fmap list_fmap] in Nd. apply NoDup_cons in Nd as [N Nd]. cbn [put_out fold_right]. fold (put_out (g_sys g) (g_sys g') l k).
      apply elem_of_cons in I as [<-|I]; [rewrite E; by apply put_out_other|].
      assert (x.1 <> wr) by (intros <-; apply N; apply elem_of_list_fmap; by exists (x.1, f)).
      destruct (ends (g_sys g) (g_sys g') x); [|by apply IH]. cbn [flush d_out]. rewrite emits_other by done. by apply IH. }
    destruct (move_files g g' M) as [[E ->]|S]; [rewrite E in F'; by apply (B f')|].
    destruct (step_files w cf cap anon line hline _ _ S) as [(wr0 & p & C & E)|[N K]].
    + rewrite (at_once_create _ _ wr0 p k1 C). cbn [create d_out]. destruct (Nat.eq_dec wr wr0) as [->|Ne]; [apply emits_same|]. rewrite emits_other by done.
      rewrite E, lookup_insert_ne in F' by done. by apply (B f').
    + rewrite at_once_other by exact N. specialize (K wr). unfold kept in K. rewrite F' in K. destruct (y_files (g_sys g) !! wr) as [f|] eqn:F; [|contradiction].
      apply (B f); [done|]. destruct K as (_ & K & _). destruct (f_open f) eqn:O; [done|]. rewrite (K eq_refl) in O'. congruence.
Qed.
End Facts.

(** ** From the records of a block to the files *)
Lemma csteps_log w cf s s' : csteps w cf s s' -> exists e, s_log s' = s_log s ++ e.
Proof.
  unfold csteps. intros H. assert (G : forall c c', rtc (cstep w cf) c c' -> exists e, c'.2 = c.2 ++ e).
  { clear. induction 1 as [c|c1 c2 c3 S _ (e & IH)]; [exists []; by rewrite app_nil_r|].
    assert (X : exists d, c2.2 = c1.2 ++ d) by (destruct S; eexists; reflexivity). destruct X as (d & X). exists (d ++ e). by rewrite IH, X, app_assoc. }
  exact (G _ _ H).
Qed.
Lemma to_save_in P C l l' : to_save P C l l' -> forall l1 r l2, l = l1 ++ r :: l2 -> rec_cookie r <> 0%N ->
  (forall o, reference P (C ++ l1) (rec_cookie r) = Some o -> ~ no_significant_change o r) -> r ∈ l'.
Proof.
  induction 1 as [C|C r0 l l' Z0 E H IH|C r0 o l l' Z0 E Ns H IH|C r0 o l l' Z0 E Ns H IH|C r0 l l' Z0 H IH]; intros l1 r l2 El Z A.
  - destruct l1; discriminate El.
  - destruct l1 as [|x l1]; injection El as -> ->; [apply elem_of_list_here|]. apply elem_of_list_further. apply (IH l1 r l2 eq_refl Z). by rewrite <- app_assoc.
  - destruct l1 as [|x l1]; injection El as -> ->; [apply elem_of_list_here|]. apply elem_of_list_further. apply (IH l1 r l2 eq_refl Z). by rewrite <- app_assoc.
  - destruct l1 as [|x l1]; injection El as -> ->; [rewrite app_nil_r in A; by destruct (A o E)|]. apply (IH l1 r l2 eq_refl Z). by rewrite <- app_assoc.
  - destruct l1 as [|x l1]; injection El as -> ->; [done|]. apply (IH l1 r l2 eq_refl Z). by rewrite <- app_assoc.
Qed.
Lemma queued_file w cf bs q : q ∈ queued (log_of w cf bs) -> exists wr p, ACreate wr p ∈ log_of w cf bs /\ q ∈ queued (file_actions wr (log_of w cf bs)).
Proof.
  intros H. unfold queued in H. apply elem_of_list_omap in H as (a & Ha & Ea). destruct a as [ | | | | | | | |q1 [c|] wr| | | | | | | | ]; try discriminate Ea.
  injection Ea as <-. assert (I : ASend q1 (Some c) wr ∈ file_actions wr (log_of w cf bs)).
  { unfold file_actions. apply elem_of_list_In, List.filter_In. split; [by apply elem_of_list_In|]. cbn. by rewrite Nat.eqb_refl. }
  assert (Hr : reached w cf (message_saver_loop w cf bs)) by apply message_saver_loop_steps.
  destruct (file_histories w cf (message_saver_loop w cf bs) wr Hr) as [E|(cl & q & k & md & recs & path & E & _)]; fold (log_of w cf bs) in E.
  - rewrite E in I. by apply elem_of_nil in I.
  - exists wr, path. split.
    + assert (J : ACreate wr path ∈ file_actions wr (log_of w cf bs)) by (rewrite E; apply elem_of_list_here).
      unfold file_actions in J. apply elem_of_list_In, List.filter_In in J as [J _]. by apply elem_of_list_In.
    + unfold queued. apply elem_of_list_omap. by exists (ASend q1 (Some c) wr).
Qed.
Lemma saved_queued w cf : io_ok w -> 1 <= nmarsh cf -> fair_order w -> forall before b after, Forall (parses cf) (before ++ b :: after) ->
  all_comparable cf (before ++ b :: after) -> forall l1 r l2, accepted cf b = l1 ++ r :: l2 -> rec_cookie r <> 0%N ->
  (forall o, reference (last_accepted cf before) l1 (rec_cookie r) = Some o -> ~ no_significant_change o r) ->
  r ∈ queued (log_of w cf (before ++ b :: after)).
Proof.
  intros Hio Hn Hf before b after Hp Hc l1 r l2 E Z A.
  replace (before ++ b :: after) with ((before ++ [b]) ++ after) in * by (by rewrite <- app_assoc).
  assert (Hp' : Forall (parses cf) (before ++ [b])) by (by apply Forall_app in Hp as [Hp _]).
  assert (Hc' : all_comparable cf (before ++ [b])) by (by apply Forall_app in Hc as [Hc _]).
  destruct (block_saves w cf Hio Hn Hf before b Hp' Hc') as (e & L & T). pose proof (to_save_in _ _ _ _ T l1 r l2 E Z A) as I.
  assert (S : csteps w cf (loop w cf (before ++ [b]) new_saver) (message_saver_loop w cf ((before ++ [b]) ++ after))).
  { unfold message_saver_loop. eapply csteps_trans; [|apply close_steps]. unfold loop. rewrite (foldl_app _ (before ++ [b]) after). apply loop_steps. }
  apply csteps_log in S as (e2 & S). unfold log_of. rewrite S, L. unfold queued. rewrite !omap_app, !elem_of_app. left. right. exact I.
Qed.
