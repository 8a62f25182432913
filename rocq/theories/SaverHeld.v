(** Facts for C61: what the saver holds after each block. *)
From stdpp Require Import gmap.
From Coq Require Import NArith ZArith Lia.
From Verif Require Import GoBase Netlink SpecNetlink Cache SpecCache Saver SpecSaver SpecTotals SpecHeld
  SaverSteps SaverFiles SaverBlocks SaverRuns SaverTotals.

Lemma creations_in wr l : wr ∈ creations l <-> exists p, ACreate wr p ∈ l.
Proof.
  unfold creations. rewrite elem_of_list_omap. split.
  - intros (a & H & E). destruct a; try discriminate E. injection E as ->. by eexists.
  - intros (p & H). by exists (ACreate wr p).
Qed.
Lemma closings_in wr l : wr ∈ closings l <-> exists q, ASend q None wr ∈ l.
Proof.
  unfold closings. rewrite elem_of_list_omap. split.
  - intros (a & H & E). destruct a; try discriminate E. destruct msg; try discriminate E. injection E as ->. by eexists.
  - intros (q & H). by exists (ASend q None wr).
Qed.
Lemma actions_in wr a l : about wr a = true -> (a ∈ l <-> a ∈ file_actions wr l).
Proof.
  intros H. unfold file_actions. rewrite !elem_of_list_In, filter_In. tauto.
Qed.

Section Held.
Variables (w : world) (cf : config).
Let P := uuid_prefix w.

Lemma creations_file wr l : creations (file_actions wr l) = filter (fun x => x = wr) (creations l).
Proof.
  induction l as [|a l IH]; [reflexivity|]. unfold file_actions in *. cbn [List.filter].
  destruct (about wr a) eqn:E.
  - unfold creations in *. cbn [omap list_omap]. destruct a; try exact IH. cbn [about] in E. apply Nat.eqb_eq in E.
    rewrite filter_cons_True by exact E. by f_equal.
  - unfold creations in *. cbn [omap list_omap]. destruct a; try exact IH. cbn [about] in E. apply Nat.eqb_neq in E.
    rewrite filter_cons_False by exact E. exact IH.
Qed.
Lemma creations_written wr q md recs path b : creations (written wr q md recs path b) = [wr].
Proof.
  unfold written. cbn. f_equal. induction recs as [|m recs IH]; [by destruct b|exact IH].
Qed.

(** The files held are those of the connections. *)
Lemma held_owned s wr : reached w cf s ->
  (wr ∈ held (s_log s) <-> exists k c, s_conns s !! k = Some c /\ cn_writer c = Some wr).
Proof.
  intros R. destruct (reached_finv w cf s R) as (H1 & H2 & H3 & H4). unfold held. rewrite elem_of_list_filter, creations_in, closings_in. split.
  - intros [Hc (p & Hp)]. destruct (le_lt_dec (p_writer (s_pos s)) wr) as [L|L].
    { exfalso. apply (actions_in wr) in Hp; [|cbn; apply Nat.eqb_refl]. unfold core in H1. rewrite (H1 wr L) in Hp. by apply elem_of_nil in Hp. }
    destruct (H3 wr L) as [H|(k & md & recs & path & E & _)]; [exact H|].
    exfalso. apply Hc. exists (qof cf k). apply (actions_in wr); [cbn; apply Nat.eqb_refl|]. rewrite E. unfold written.
    rewrite !elem_of_app. right. right. by left.
  - intros (k & c & Hk & Hw). destruct (H2 _ _ _ Hk Hw) as (L & md & recs & path & E & U & S). split.
    + intros (q & Hq). apply (actions_in wr) in Hq; [|cbn; apply Nat.eqb_refl]. rewrite E in Hq. unfold written in Hq.
      rewrite !elem_of_app in Hq. destruct Hq as [Hq|[Hq|Hq]].
      * apply elem_of_cons in Hq as [Hq|Hq]; [discriminate Hq|]. apply elem_of_list_singleton in Hq. discriminate Hq.
      * apply elem_of_list_In, in_map_iff in Hq as (m & Hq & _). discriminate Hq.
      * by apply elem_of_nil in Hq.
    + exists path. apply (actions_in wr); [cbn; apply Nat.eqb_refl|]. rewrite E. unfold written. by left.
Qed.
Lemma creations_nodup s : reached w cf s -> NoDup (creations (s_log s)).
Proof.
  intros R. assert (G : forall wr, length (filter (fun x => x = wr) (creations (s_log s))) <= 1).
  { intros wr. rewrite <- creations_file. destruct (file_histories w cf s wr R) as [->|(b & q & k & md & recs & path & -> & _)].
    - cbn. lia.
    - rewrite creations_written. cbn. lia. }
  revert G. generalize (creations (s_log s)). intros l G. induction l as [|x l IH]; [constructor|].
  apply NoDup_cons. split.
  - intros Hx. specialize (G x). rewrite filter_cons_True in G by reflexivity. cbn [length] in G.
    assert (E : filter (fun y => y = x) l = []) by (apply length_zero_iff_nil; lia).
    assert (K : x ∈ filter (fun y => y = x) l) by (by apply elem_of_list_filter). rewrite E in K. by apply elem_of_nil in K.
  - apply IH. intros wr. specialize (G wr). destruct (decide (x = wr)) as [Q|Q].
    + rewrite filter_cons_True in G by exact Q. cbn [length] in G. lia.
    + by rewrite filter_cons_False in G by exact Q.
Qed.
Lemma held_nodup s : reached w cf s -> NoDup (held (s_log s)).
Proof. intros R. apply NoDup_filter. by apply creations_nodup. Qed.
Lemma file_of_written s wr k c : reached w cf s -> s_conns s !! k = Some c -> cn_writer c = Some wr ->
  forall k', (k' < two64)%N -> (file_of P k' wr (s_log s) <-> k' = k).
Proof.
  intros R Hk Hw k' L'. destruct (reached_finv w cf s R) as (H1 & H2 & H3 & H4).
  destruct (H2 _ _ _ Hk Hw) as (L & md & recs & path & E & U & S). split.
  - intros (md' & Hmd & U'). apply (actions_in wr) in Hmd; [|cbn; apply Nat.eqb_refl]. rewrite E in Hmd. unfold written in Hmd.
    rewrite !elem_of_app in Hmd. destruct Hmd as [Hq|[Hq|Hq]].
    + apply elem_of_cons in Hq as [Hq|Hq]; [discriminate Hq|]. apply elem_of_list_singleton in Hq. injection Hq as ->.
      apply (from_cookie_inj P); [exact L'|by eapply H4|unfold P in *; congruence].
    + apply elem_of_list_In, in_map_iff in Hq as (m & Hq & _). discriminate Hq.
    + by apply elem_of_nil in Hq.
  - intros ->. exists md. split; [|exact U]. apply (actions_in wr); [cbn; apply Nat.eqb_refl|]. rewrite E. unfold written. right. by left.
Qed.
Lemma one_each s : reached w cf s -> NoDup (held (s_log s)) /\
  (forall wr, wr ∈ held (s_log s) -> exists k, (k < two64)%N /\ k <> 0%N /\ file_of P k wr (s_log s)) /\
  forall k wr wr', (k < two64)%N -> wr ∈ held (s_log s) -> wr' ∈ held (s_log s) ->
    file_of P k wr (s_log s) -> file_of P k wr' (s_log s) -> wr = wr'.
Proof.
  intros R. split; [by apply held_nodup|]. split.
  - intros wr H. apply (held_owned s wr R) in H as (k & c & Hk & Hw).
    destruct (reached_finv w cf s R) as (_ & _ & _ & H4). destruct (H4 _ _ Hk) as (A & B & _). exists k. split; [exact A|]. split; [exact B|].
    by apply (file_of_written s wr k c R Hk Hw k A).
  - intros k wr wr' L H H' F F'. apply (held_owned s wr R) in H as (k1 & c1 & Hk1 & Hw1). apply (held_owned s wr' R) in H' as (k2 & c2 & Hk2 & Hw2).
    apply (file_of_written s wr k1 c1 R Hk1 Hw1 k L) in F. apply (file_of_written s wr' k2 c2 R Hk2 Hw2 k L) in F'. congruence.
Qed.

Lemma connections_in k l : k ∈ connections l <-> k <> 0%N /\ k ∈ cookies_of l.
Proof. unfold connections. by rewrite elem_of_remove_dups, elem_of_list_filter. Qed.

Section Fine.
Hypothesis Hio : io_ok w.
Hypothesis Hm : 1 <= nmarsh cf.
Hypothesis Hfair : fair_order w.
Lemma conns_last bs : s_dead (loop w cf bs new_saver) = false ->
  forall k, is_Some (s_conns (loop w cf bs new_saver) !! k) <-> k ∈ connections (last_accepted cf bs).
Proof using Hio Hm Hfair.
  intros Hd k. destruct (loop_inv w cf Hio Hm Hfair bs Hd) as [_ _ I0 Ik _ _]. rewrite connections_in. split.
  - intros Hk. destruct (decide (k = 0%N)) as [->|Hne]; [rewrite I0 in Hk; by destruct Hk|]. split; [exact Hne|].
    apply (Ik k Hne) in Hk as [Hk|Hk]; [by destruct Hk|]. destruct (decide (k ∈ cookies_of (last_accepted cf bs))) as [E|E]; [exact E|].
    exfalso. apply Hk. by apply latest_None.
  - intros [Hne Hk]. apply (Ik k Hne). right. intros E. apply latest_None in E. by apply E.
Qed.
Lemma held_last bs : s_dead (loop w cf bs new_saver) = false ->
  let l := s_log (loop w cf bs new_saver) in
  length (held l) = length (connections (last_accepted cf bs)) /\
  forall k, (k < two64)%N -> ((exists wr, wr ∈ held l /\ file_of P k wr l) <-> k ∈ connections (last_accepted cf bs)).
Proof using Hio Hm Hfair.
  intros Hd l. set (s := loop w cf bs new_saver) in *. subst l. assert (R : reached w cf s) by apply loop_steps.
  pose proof (conns_last bs Hd) as Hc. fold s in Hc.
  destruct (loop_inv w cf Hio Hm Hfair bs Hd) as [_ _ _ _ Iw _]. fold s in Iw. split.
  - transitivity (length (map_to_list (s_conns s)).*1).
    + transitivity (length (omap (fun kc => cn_writer kc.2) (map_to_list (s_conns s)))).
      * apply Permutation_length, NoDup_Permutation.
        -- by apply held_nodup.
        -- assert (G : forall m : list (N * conn), NoDup m.*1 -> (forall k c, (k, c) ∈ m -> s_conns s !! k = Some c) ->
             NoDup (omap (fun kc => cn_writer kc.2) m)).
           { induction m as [|[k c] m IH]; [constructor|]. cbn [fmap list_fmap fst]. intros N1 N2. apply NoDup_cons in N1 as [N1 N3].
             cbn [omap list_omap snd]. assert (IH' := IH N3 ltac:(intros; apply N2; by right)). destruct (cn_writer c) as [wr|] eqn:Ew; [|exact IH'].
             apply NoDup_cons. split; [|exact IH']. intros K. apply elem_of_list_omap in K as ([k' c'] & K1 & K2). cbn [snd] in K2.
             apply N1. apply elem_of_list_fmap. exists (k', c'). split; [|exact K1]. cbn [fst].
             eapply (finv_owner_unique w cf (s_conns s) (p_writer (s_pos s)) (s_log s)); [exact (reached_finv w cf s R)| | |exact Ew|exact K2].
             - apply N2. by left.
             - apply N2. by right. }
           apply G; [apply NoDup_fst_map_to_list|]. intros k c. apply elem_of_map_to_list.
        -- intros wr. rewrite (held_owned s wr R), elem_of_list_omap. split.
           ++ intros (k & c & Hk & Hw). exists (k, c). split; [by apply elem_of_map_to_list|exact Hw].
           ++ intros ([k c] & Hk & Hw). apply elem_of_map_to_list in Hk. by exists k, c.
      * rewrite fmap_length. assert (G : forall m : list (N * conn), (forall k c, (k, c) ∈ m -> is_Some (cn_writer c)) ->
          length (omap (fun kc => cn_writer kc.2) m) = length m).
        { induction m as [|[k c] m IH]; [reflexivity|]. intros H. cbn [omap list_omap snd]. destruct (H k c) as (wr & ->); [by left|].
          cbn [length]. f_equal. apply IH. intros; eapply H; by right. }
        apply G. intros k c Hk. apply elem_of_map_to_list in Hk. by eapply Iw.
    + apply Permutation_length, NoDup_Permutation; [apply NoDup_fst_map_to_list|apply NoDup_remove_dups|].
      intros k. rewrite <- Hc, elem_of_list_fmap. split.
      * intros ([k' c] & -> & Hk). apply elem_of_map_to_list in Hk. by exists c.
      * intros (c & Hk). exists (k, c). split; [reflexivity|]. by apply elem_of_map_to_list.
  - intros k L. rewrite <- Hc. split.
    + intros (wr & H & F). apply (held_owned s wr R) in H as (k1 & c1 & Hk1 & Hw1). apply (file_of_written s wr k1 c1 R Hk1 Hw1 k L) in F.
      subst. by exists c1.
    + intros (c & Hk). destruct (Iw _ _ Hk) as (wr & Hw). exists wr. split; [apply (held_owned s wr R); by exists k, c|].
      by apply (file_of_written s wr k c R Hk Hw k L).
Qed.
End Fine.

Lemma closing_last bs : fair_order w -> s_dead (loop w cf bs new_saver) = false -> disciplined (rounds cf bs) ->
  forall k, is_Some (s_closing (loop w cf bs new_saver) !! k) -> exists r, r ∈ last_accepted cf bs /\ rec_cookie r = k /\ bare r.
Proof.
  intros Hf Hd HD k (x & Hk). destruct (loop_settled w cf Hf bs Hd HD) as [(_ & _ & S & _) _].
  destruct (S _ _ Hk) as (_ & r & Hr & E & B). rewrite rounds_head in Hr. exists r. split; [exact Hr|]. split; [exact E|]. by apply bare_info.
Qed.
End Held.
