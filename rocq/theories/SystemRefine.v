(** The saver goroutine computes the same with and without marshallers running
    beside it. *)
From stdpp Require Import gmap.
From Coq Require Import NArith ZArith Lia.
From Verif Require Import GoBase GoBaseFacts GoTime Inetdiag Netlink SpecNetlink SpecCompare RecordFacts CompareFacts
  Cache SpecCache CacheFacts Saver SpecSaver SpecSystem SaverSteps SaverFiles SaverJobs SaverBlocks SaverRuns
  System SystemViews SystemJobs SystemInv SystemFiles.

Section Refine.
Variables (w : world) (cf : config) (cap : nat) (anon : bytes -> bytes) (line : archival -> bytes) (hline : metadata -> bytes).
Hypothesis Hlen : forall x, length (anon x) = length x.
Hypothesis Hn : 1 <= nmarsh cf.
Variable bs : list block.
Hypothesis Hcmp : all_comparable cf bs.
Notation step := (step w cf cap anon line hline).
Notation reachable := (reachable w cf cap anon line hline bs).

(** All the work a job stands for. *)
Definition job_all (s : saver) (j : job) : saver :=
  match j with
  | JBlock b => do_block w cf c_ar b s
  | JRound t => let '(res, s') := end_round w s in report t (foldl (fun s km => close_one w cf c_ar km s) s' res)
  | JShutdown => close w cf s
  | _ => (run_job w cf c_ar j s).1
  end.
Definition run_all (js : list job) (s : saver) : saver := foldl job_all s js.
Lemma run_all_app a b s : run_all (a ++ b) s = run_all b (run_all a s). Proof. apply foldl_app. Qed.
Lemma run_all_msgs t ms s : run_all (map (JMsg t) ms) s = handle_type w cf c_ar t ms s.
Proof. revert s. induction ms as [|m ms IH]; intros s; [done|]. cbn. apply IH. Qed.
Lemma run_all_closes l s : run_all (map JClose l) s = foldl (fun s km => close_one w cf c_ar km s) s l.
Proof. revert s. induction l as [|m ms IH]; intros s; [done|]. cbn. apply IH. Qed.
Lemma run_all_ends l s : run_all (map JEndConn l) s = foldl (fun s k => end_conn_alive w cf k s) s l.
Proof. revert s. induction l as [|m ms IH]; intros s; [done|]. cbn. apply IH. Qed.
Lemma run_all_blocks l s : run_all (map JBlock l) s = loop w cf l s.
Proof. revert s. induction l as [|m ms IH]; intros s; [done|]. cbn. apply IH. Qed.
Lemma job_all_run j s : s_dead s = false ->
  run_all (run_job w cf c_ar j s).2 (run_job w cf c_ar j s).1 = job_all s j.
Proof.
  intros Hd. destruct j as [b|t m|t|km|t| |k|]; cbn [run_job job_all fst snd]; try reflexivity.
  - rewrite !run_all_app, !run_all_msgs. unfold do_block. cbn. reflexivity.
  - destruct (end_round w s) as [res s1]. cbn [fst snd]. rewrite run_all_app, run_all_closes. reflexivity.
  - unfold close. rewrite Hd. unfold range_keys. cbn [fst snd]. rewrite run_all_app, run_all_ends. reflexivity.
Qed.
Lemma job_all_dead j s : s_dead s = true -> job_all s j = s.
Proof.
  intros Hd. destruct j as [b|t m|t|km|t| |k|]; cbn [run_job job_all fst snd].
  - by apply do_block_dead.
  - unfold handle_msg. by rewrite Hd.
  - unfold end_round. rewrite Hd. cbn. unfold report. by rewrite Hd.
  - unfold close_one. by rewrite Hd.
  - unfold report. by rewrite Hd.
  - unfold close. by rewrite Hd.
  - unfold end_conn_alive. by rewrite Hd.
  - unfold close_chans. by rewrite Hd.
Qed.
Lemma run_all_dead js s : s_dead s = true -> run_all js s = s.
Proof. intros Hd. induction js as [|j js IH]; [done|]. cbn. rewrite job_all_dead by done. exact IH. Qed.
(** The log only grows. *)
Lemma job_all_log j s : exists e, s_log (job_all s j) = s_log s ++ e.
Proof.
  destruct (s_dead s) eqn:Hd; [exists []; rewrite job_all_dead by done; by rewrite app_nil_r|].
  assert (G : forall js s, (forall j, j ∈ js -> job_all = job_all -> forall s, exists e, s_log (job_all s j) = s_log s ++ e) ->
    exists e, s_log (run_all js s) = s_log s ++ e).
  { intros js. induction js as [|j' js IH]; intros s1 H; [exists []; by rewrite app_nil_r|]. cbn [run_all foldl].
    destruct (H j' (elem_of_list_here _ _) eq_refl s1) as [e1 E1].
    destruct (IH (job_all s1 j')) as [e2 E2]; [intros j0 Hj; apply H; by right|]. exists (e1 ++ e2). unfold run_all in E2. by rewrite E2, E1, app_assoc. }
  assert (B : forall j, (match j with JBlock _ | JRound _ | JShutdown => False | _ => True end) -> forall s, exists e, s_log (job_all s j) = s_log s ++ e).
  { intros j' Hj s1. destruct j'; try contradiction; apply (log_grows w cf c_ar). }
  assert (G2 : forall j s, (forall j', j' ∈ (run_job w cf c_ar j s).2 -> forall s, exists e, s_log (job_all s j') = s_log s ++ e) -> s_dead s = false ->
    exists e, s_log (job_all s j) = s_log s ++ e).
  { intros j1 s1 H1 Hd1. rewrite <- job_all_run by exact Hd1. destruct (log_grows w cf c_ar j1 s1) as [e1 E1].
    destruct (G (run_job w cf c_ar j1 s1).2 (run_job w cf c_ar j1 s1).1) as [e2 E2]; [intros j' Hj _; by apply H1|].
    exists (e1 ++ e2). by rewrite E2, E1, app_assoc. }
  assert (R : forall t s, exists e, s_log (job_all s (JRound t)) = s_log s ++ e).
  { intros t s1. destruct (s_dead s1) eqn:Hd1; [exists []; rewrite job_all_dead by done; by rewrite app_nil_r|]. apply G2; [|exact Hd1].
    intros j' Hj. apply B. cbn in Hj. destruct (end_round w s1). cbn in Hj. apply elem_of_app in Hj as [Hj|Hj].
    - apply elem_of_list_In, in_map_iff in Hj as (? & <- & _). exact I.
    - apply elem_of_list_singleton in Hj as ->. exact I. }
  destruct j as [b|t m|t|km|t| |k|]; try (apply B; exact I); [|apply R|].
  - apply G2; [|exact Hd]. intros j' Hj. cbn in Hj. rewrite !elem_of_app in Hj. destruct Hj as [Hj|[Hj|Hj]].
    + apply elem_of_list_In, in_map_iff in Hj as (? & <- & _). by apply B.
    + apply elem_of_list_In, in_map_iff in Hj as (? & <- & _). by apply B.
    + apply elem_of_list_singleton in Hj as ->. apply R.
  - apply G2; [|exact Hd]. intros j' Hj. cbn in Hj. apply B. rewrite !elem_of_app in Hj. destruct Hj as [Hj|Hj].
    + apply elem_of_list_In, in_map_iff in Hj as (? & <- & _). exact I.
    + apply elem_of_list_singleton in Hj as ->. exact I.
Qed.
Lemma run_all_log js s : exists e, s_log (run_all js s) = s_log s ++ e.
Proof.
  revert s. induction js as [|j js IH]; intros s; [exists []; by rewrite app_nil_r|]. cbn [run_all foldl].
  destruct (job_all_log j s) as [e1 E1], (IH (job_all s j)) as [e2 E2]. exists (e1 ++ e2). unfold run_all in E2. by rewrite E2, E1, app_assoc.
Qed.

Definition job_ok (j : job) : Prop :=
  match j with
  | JBlock b => Forall comparable (accepted cf b)
  | JMsg _ m => msg_ok cf m
  | _ => True
  end.
Definition inv5 (y : sys) : Prop :=
  run_all (y_jobs y) (y_saver y) = message_saver_loop w cf bs /\ Forall job_ok (y_jobs y) /\ cells_ok (y_saver y).
Lemma inv5_init : inv5 (initial cf bs).
Proof.
  split; [|split].
  - cbn [initial y_jobs y_saver]. rewrite run_all_app, run_all_blocks. reflexivity.
  - apply Forall_app. split; [|by repeat constructor]. apply Forall_forall. intros j Hj. apply elem_of_list_In, in_map_iff in Hj as (b & <- & Hb).
    cbn. unfold all_comparable in Hcmp. rewrite Forall_forall in Hcmp. apply Hcmp. by apply elem_of_list_In.
  - intros k c [H|H]; cbn in H; by rewrite lookup_empty in H.
Qed.
(** Records in use are seen unchanged up to their addresses. *)
Lemma current_sees y own c : inv1 w cf y -> inv2 cf anon line y -> y_panic y = false -> records own y -> known own c -> sees (c_ar c) (current (y_heap y) c).
Proof.
  intros I1 I2 P (K1 & K2 & K3 & K4 & K5) Hc. unfold current. destruct (y_heap y !! c_uid c) as [raw|] eqn:E; [|apply sees_refl].
  destruct (I2 P) as (H1 & _ & _). destruct (H1 _ _ E) as (c' & Hs & Eu & Ha).
  assert (Hk : known own c'). { apply K3. destruct (executed_log y) as [e ->]. rewrite sent_app. apply elem_of_app. left. exact Hs. }
  unfold known in Hc, Hk. rewrite Eu, Hc in Hk. injection Hk as Hk. rewrite <- Hk in Ha.
  pose proof (anonymize_hidden anon (header (c_ar c)) Hlen) as A. rewrite Ha in A.
  destruct (hidden_header_outside anon _ _ Hlen A) as (L & L1 & L2 & L3). unfold header in *.
  destruct (ar_raw (c_ar c)) as [b|] eqn:Er; [|cbn in L; lia].
  split; [reflexivity|]. split; [reflexivity|]. cbn [ar_attrs ar_raw]. rewrite Er. split; [|split; [exact L1|split; [exact L2|exact L3]]].
  destruct (sees_refl (c_ar c)) as (_ & _ & S & _). exact S.
Qed.
Lemma view_irrelevant y j js view : inv1 w cf y -> inv2 cf anon line y -> y_panic y = false -> inv5 y -> y_jobs y = j :: js ->
  (forall c, sees (current (y_heap y) c) (view c)) -> run_job w cf view j (y_saver y) = run_job w cf c_ar j (y_saver y).
Proof.
  intros I1 I2 P (_ & J & C) E V. pose proof I1 as (_ & _ & own & R). pose proof R as (K1 & K2 & _).
  assert (G : forall c, known own c -> sees (c_ar c) (view c)).
  { intros c Hc. eapply sees_trans; [|apply V]. by eapply current_sees. }
  rewrite E in J. inversion J as [|? ? J1 J2]; subst. destruct j as [b|t m|t|km|t| |k|]; cbn [run_job]; try reflexivity.
  - rewrite handle_view; [reflexivity| |exact C|exact J1]. intros k c Hc. apply G, K1. exists k. by right.
  - rewrite close_view; [reflexivity|]. apply G. destruct km as [k c]. apply (K2 k). rewrite E. by left.
Qed.
Lemma inv5_step y y' : inv1 w cf y -> inv2 cf anon line y -> inv5 y -> step y y' -> inv5 y'.
Proof.
  intros I1 I2 I H. destruct (step_saver _ _ _ _ _ _ _ _ H) as [(j & js & view & A & Pc & J & V & ->)|(E1 & E2 & _)].
  2:{ unfold inv5. rewrite E1, E2. exact I. }
  pose proof (alive_saver _ A Pc) as Hd. pose proof (view_irrelevant y j js view I1 I2 (proj1 A) I J V) as Ev.
  destruct I as (R & Jo & C). unfold inv5. cbn [y_jobs y_saver with_saver]. rewrite Ev. rewrite J in R, Jo. inversion Jo as [|? ? Jo1 Jo2]; subst. split; [|split].
  - rewrite run_all_app, job_all_run by exact Hd. exact R.
  - apply Forall_app. split; [|exact Jo2].
    destruct j as [b|t m|t|km|t| |k|]; cbn [run_job snd]; try (by constructor).
    + cbn in Jo1. unfold accepted in Jo1. apply Forall_app in Jo1 as [A4 A6].
      assert (G : forall t ms, Forall comparable (accepted_of (excl cf) t ms) -> Forall job_ok (map (JMsg t) ms)).
      { intros t ms Hms. apply Forall_forall. intros j Hj. apply elem_of_list_In, in_map_iff in Hj as (m & <- & Hm). intros msg ar -> Ear.
        rewrite Forall_forall in Hms. apply (Hms (mkar t (ar_raw ar) (ar_attrs ar) (ar_meta ar))).
        apply elem_of_list_omap. exists (Some msg). split; [by apply elem_of_list_In|]. rewrite Ear. reflexivity. }
      apply Forall_app. split; [by apply G|]. apply Forall_app. split; [by apply G|]. by repeat constructor.
    + destruct (end_round w (y_saver y)). cbn [snd]. apply Forall_app. split; [|by repeat constructor].
      apply Forall_forall. intros j Hj. apply elem_of_list_In, in_map_iff in Hj as (m & <- & Hm). exact Logic.I.
    + cbn. apply Forall_app. split; [|by repeat constructor].
      apply Forall_forall. intros j Hj. apply elem_of_list_In, in_map_iff in Hj as (m & <- & Hm). exact Logic.I.
  - assert (G : (forall c, in_cache c (run_job w cf c_ar j (y_saver y)).1 -> in_cache c (y_saver y) \/ comparable (c_ar c))).
    { destruct (match j with JMsg _ _ => true | _ => false end) eqn:Ej.
      - destruct j as [b|t m|t|km|t| |k|]; try discriminate Ej. cbn [run_job fst]. intros c Hc.
        destruct (handle_effect w cf c_ar t m (y_saver y)) as [(e & _ & _ & _ & Ec & _)|(ar & (msg & ar0 & Em & Ear & ->) & _ & Hcs & _)].
        + left. unfold in_cache in *. rewrite Ec in Hc. exact Hc.
        + destruct (Hcs c Hc) as [->|Hc']; [|left; exact Hc']. right. exact (Jo1 msg ar0 Em Ear).
      - intros c Hc. left. destruct (job_effect w cf c_ar j (y_saver y) Hd) as (_ & e & L & [(_ & _ & D)|(ar & Hu & _)]); [exact (D c Hc)|].
        exfalso. destruct j as [b|t m|t|km|t| |k|]; try discriminate Ej; cbn [run_job fst] in Hu.
        + lia.
        + destruct (end_round_effect w (y_saver y)) as ((? & _ & _ & _ & _ & P) & _). destruct (end_round w (y_saver y)) as [r s1]. cbn in P, Hu. lia.
        + destruct (close_one_adds w cf c_ar km (y_saver y)) as (? & _ & _ & _ & _ & P). lia.
        + destruct (report_adds t (y_saver y)) as (? & _ & _ & _ & _ & P). lia.
        + unfold range_keys in Hu. cbn in Hu. lia.
        + unfold end_conn_alive in Hu. rewrite Hd in Hu. destruct (end_conn_adds w cf k (y_saver y)) as (? & _ & _ & _ & _ & P). lia.
        + destruct (close_chans_log cf (y_saver y) Hd) as (_ & _ & P & _). lia. }
    intros k c Hc. destruct (G c) as [(k' & Hi)|Hi]; [by exists k|exact (C k' c Hi)|exact Hi].
Qed.
Lemma refines y : reachable y -> inv5 y.
Proof.
  intros H. cut (inv1 w cf y /\ inv2 cf anon line y /\ inv5 y); [intros (_ & _ & ?); done|].
  apply (rtc_ind_r (R := step) (fun y => inv1 w cf y /\ inv2 cf anon line y /\ inv5 y) (initial cf bs)).
  - split; [apply inv1_init|]. split; [apply inv2_init|apply inv5_init].
  - intros y1 y2 _ St (I1 & I2 & I3). split; [by eapply inv1_step|]. split; [by eapply inv2_step|by eapply inv5_step].
  - exact H.
Qed.
(** The saver's log is always a prefix of that of the run without marshallers. *)
Lemma log_prefix y : reachable y -> exists e, s_log (message_saver_loop w cf bs) = s_log (y_saver y) ++ e.
Proof. intros H. destruct (refines y H) as (<- & _). apply run_all_log. Qed.
Lemma log_final y : reachable y -> y_jobs y = [] \/ s_dead (y_saver y) = true -> y_saver y = message_saver_loop w cf bs.
Proof.
  intros H D. destruct (refines y H) as (R & _). rewrite <- R. destruct D as [->|D]; [done|]. by rewrite run_all_dead.
Qed.
End Refine.
