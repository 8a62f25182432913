(** The metrics of the saver: files and cache sizes. *)
From stdpp Require Import gmap relations.
From Coq Require Import NArith ZArith Lia.
From Verif Require Import GoBase GoBaseFacts GoTime Inetdiag Netlink SpecNetlink SpecCompare RecordFacts CompareFacts
  Cache SpecCache CacheFacts Saver SpecSaver SaverSteps SaverJobs SaverBlocks SaverRuns SaverCounts SaverHistory.

Lemma cache_sizes_app l1 l2 : cache_sizes (l1 ++ l2) = cache_sizes l1 ++ cache_sizes l2.
Proof. apply omap_app. Qed.
Lemma cache_size P C c : cache_is P C c -> size (cur c) = length (remove_dups (cookies_of C)).
Proof.
  intros [Hc _]. rewrite <- (size_dom (D := gset N)).
  assert (E : dom (cur c) = list_to_set (remove_dups (cookies_of C)) :> gset N).
  { apply set_eq. intros k. rewrite elem_of_dom, elem_of_list_to_set, elem_of_remove_dups. pose proof (latest_None k C) as L. fold (cookies_of C) in L. rewrite <- Hc in L.
    destruct (cur c !! k) as [m|]; cbn in L; split; intros H.
    - destruct (decide (k ∈ cookies_of C)) as [I|I]; [exact I|]. apply L in I. discriminate I.
    - by eexists.
    - by destruct H.
    - exfalso. by apply L. }
  rewrite E. apply size_list_to_set, NoDup_remove_dups.
Qed.

Section Sizes.
Variables (w : world) (cf : config).
Lemma file_work_sizes e : forallb file_work e = true -> cache_sizes e = [].
Proof.
  unfold cache_sizes. induction e as [|a e IH]; [done|]. cbn [forallb]. intros H. apply andb_prop in H as [H1 H2].
  cbn. rewrite (IH H2). by destruct a.
Qed.
Lemma take_sizes P b s : cache_is P [] (s_cache s) -> s_dead (take_block w cf b s) = false ->
  cache_is P (accepted cf b) (s_cache (take_block w cf b s)) /\ cache_sizes (s_log (take_block w cf b s)) = cache_sizes (s_log s).
Proof.
  intros Hc Ha.
  refine (proj2 (take_block_ind w cf (fun C s' => cache_is P C (s_cache s') /\ cache_sizes (s_log s') = cache_sizes (s_log s)) _ b s _ Ha)); [|done].
  intros C r s1 [I1 I2] D Hf D'. destruct (accept_general w cf P C r s1 I1 Hf D D') as (A1 & _ & _ & _ & _ & e & L & F & _).
  split; [exact A1|]. rewrite L, !cache_sizes_app, (file_work_sizes e F), I2. destruct (worth_saving P C r); by rewrite !app_nil_r.
Qed.
Lemma close_one_sizes k m s : s_cache (close_one w cf c_ar (k, m) s) = s_cache s /\ cache_sizes (s_log (close_one w cf c_ar (k, m) s)) = cache_sizes (s_log s).
Proof.
  unfold close_one. destruct (s_dead s); [done|].
  lazymatch goal with |- context [let '(_, _) := ?x in _] => assert (Hx : s_cache x.2 = s_cache s /\ s_log x.2 = s_log s) end.
  { destruct (negb _); [|done]. by destruct (s_closing s !! k). }
  lazymatch goal with |- context [let '(_, _) := ?x in _] => destruct x as [st s1] end.
  cbn [snd] in Hx. destruct Hx as (X1 & X2). cbn zeta.
  lazymatch goal with |- context [end_conn w cf k ?s2] => set (s2' := s2); assert (Y : s_cache s2' = s_cache s /\ s_log s2' = s_log s) by (split; assumption); clearbody s2' end.
  assert (L : s_cache (end_conn w cf k s2') = s_cache s /\ cache_sizes (s_log (end_conn w cf k s2')) = cache_sizes (s_log s)).
  { destruct Y as (Y1 & Y2). rewrite <- Y1, <- Y2. unfold end_conn. destruct (now w s2') as [t s3] eqn:En.
    cbn zeta. unfold now in En. injection En as <- <-.
    destruct (Nat.eqb (nmarsh cf) 0); [cbn; rewrite !cache_sizes_app; cbn; by rewrite !app_nil_r|].
    destruct (s_conns _ !! k) as [c|]; [destruct (cn_writer c)|]; cbn; rewrite !cache_sizes_app; cbn; by rewrite !app_nil_r. }
  destruct (s_dead (end_conn w cf k s2')); exact L.
Qed.
Lemma close_all_sizes rs : forall s, s_cache (close_all w cf rs s) = s_cache s /\ cache_sizes (s_log (close_all w cf rs s)) = cache_sizes (s_log s).
Proof.
  induction rs as [|[k m] rs IH]; intros s; [done|].
  change (close_all w cf ((k, m) :: rs) s) with (close_all w cf rs (close_one w cf c_ar (k, m) s)).
  destruct (IH (close_one w cf c_ar (k, m) s)) as (A & B), (close_one_sizes k m s) as (C & D). split; congruence.
Qed.
Lemma report_sizes t s : s_cache (report t s) = s_cache s /\ cache_sizes (s_log (report t s)) = cache_sizes (s_log s).
Proof.
  unfold report. destruct (s_dead s); [done|]. destruct (_ <? _)%Z; [|done]. unfold report_one.
  repeat (destruct (_ || _)); cbn; rewrite !cache_sizes_app; cbn; by rewrite !app_nil_r.
Qed.
Hypothesis Hfair : fair_order w.
Lemma loop_sizes bs : s_dead (loop w cf bs new_saver) = false ->
  cache_is (last_accepted cf bs) [] (s_cache (loop w cf bs new_saver)) /\
  cache_sizes (s_log (loop w cf bs new_saver)) = map (fun b => length (remove_dups (cookies_of (accepted cf b)))) bs.
Proof using Hfair.
  induction bs as [|b bs IH] using rev_ind; intros Hd; [split; [apply cache_is_new|done]|].
  pose proof (loop_alive _ _ _ _ _ Hd) as Hd'. destruct (IH Hd') as [Hc Hn]. rewrite loop_snoc, last_accepted_snoc in *.
  set (s := loop w cf bs new_saver) in *. clearbody s. revert Hd. rewrite do_block_eq.
  destruct (s_dead (take_block w cf b s)) eqn:Hd.
  { rewrite (end_round_dead _ _ Hd). cbn [fst snd]. rewrite close_all_dead by exact Hd. rewrite report_dead, Hd. discriminate. }
  destruct (take_sizes _ b s Hc Hd) as (C1 & S1). set (s1 := take_block w cf b s) in *. clearbody s1.
  destruct (end_round_spec w s1 Hfair Hd) as (rs & -> & _). cbn [fst snd]. cbn zeta. set (s2 := with_pos _ _). intros _.
  destruct (close_all_sizes rs s2) as (C3 & S3), (report_sizes (V4Time b) (close_all w cf rs s2)) as (C4 & S4).
  split; [rewrite C4, C3; exact (proj2 (cache_is_end _ _ _ C1))|].
  rewrite S4, S3. change (s_log s2) with (s_log s1 ++ [ACacheSize (size (cur (s_cache s1)))]). rewrite cache_sizes_app, S1, Hn, map_app, (cache_size _ _ _ C1). reflexivity.
Qed.
End Sizes.

(** ** Files *)
Lemma steps_files w cf bs : let l := s_log (message_saver_loop w cf bs) in count is_new_file l = count is_created l.
Proof.
  cut (forall x, rtc (cstep w cf) (core new_saver) x -> count is_new_file x.2 = count is_created x.2).
  { intros H. exact (H _ (message_saver_loop_steps w cf bs)). }
  apply (rtc_ind_r (R := cstep w cf) (fun x => count is_new_file x.2 = count is_created x.2)); [reflexivity|].
  intros x y _ St IH. destruct St; cbn [snd] in *; rewrite !count_app, IH; f_equal. by destruct a.
Qed.
