(** Proofs about the cache (C15, C16). *)
From stdpp Require Import gmap.
From Coq Require Import NArith ZArith Lia.
From Verif Require Import GoBase GoBaseFacts Inetdiag Netlink SpecNetlink SpecCompare RecordFacts CompareFacts Cache SpecCache.

Lemma record_cookie_usable m : usable m -> record_cookie (c_ar m) = Ret (cookie_of m).
Proof.
  unfold usable, cookie_of, record_cookie, header. intros H.
  destruct (ar_raw (c_ar m)) as [raw|]; [|cbn in H; lia].
  destruct (sockid_fields raw H) as (i & -> & _ & _ & _ & _ & E). cbn [bind]. rewrite E. reflexivity.
Qed.
Lemma record_cookie_unusable m : ~ usable m -> record_cookie (c_ar m) = Fail ErrParseFailed.
Proof.
  unfold usable, record_cookie, header. intros H.
  rewrite parse_idm_short; [reflexivity|]. destruct (ar_raw (c_ar m)); cbn [raw_bytes]; cbn in *; lia.
Qed.

Lemma rounds_from_app acc h1 h2 : rounds_from acc (h1 ++ h2) = rounds_from (rounds_from acc h1) h2.
Proof. revert acc. induction h1 as [|[m|] h1 IH]; intros acc; cbn; [reflexivity|apply IH|apply IH]. Qed.
Lemma rounds_from_ne acc h : acc <> [] -> rounds_from acc h <> [].
Proof.
  revert acc. induction h as [|[m|] h IH]; intros acc Ha; cbn; [done| |apply IH; done].
  apply IH. destruct acc; done.
Qed.
Lemma rounds_cons h : exists rs, rounds h = this_round h :: rs /\ last_round h = nth 0 rs [].
Proof.
  unfold this_round, last_round. pose proof (rounds_from_ne [[]] h) as H.
  fold (rounds h) in H. destruct (rounds h) as [|r rs]; [exfalso; by apply H|]. exists rs. done.
Qed.
Lemma this_round_upd h m : this_round (h ++ [CUpdate m]) = this_round h ++ (if decide (usable m) then [m] else []).
Proof.
  unfold this_round at 1. unfold rounds. rewrite rounds_from_app. fold (rounds h).
  destruct (rounds_cons h) as (rs & -> & _). reflexivity.
Qed.
Lemma last_round_upd h m : last_round (h ++ [CUpdate m]) = last_round h.
Proof.
  unfold last_round. unfold rounds at 1. rewrite rounds_from_app. fold (rounds h).
  destruct (rounds_cons h) as (rs & -> & _). reflexivity.
Qed.
Lemma this_round_end h : this_round (h ++ [CEndCycle]) = [].
Proof. unfold this_round, rounds. rewrite rounds_from_app. reflexivity. Qed.
Lemma last_round_end h : last_round (h ++ [CEndCycle]) = this_round h.
Proof. unfold last_round, rounds. rewrite rounds_from_app. reflexivity. Qed.

Lemma last_for_snoc k l m : last_for k (l ++ [m]) = if decide (cookie_of m = k) then Some m else last_for k l.
Proof.
  unfold last_for. rewrite filter_app. case_decide as E.
  - rewrite filter_cons_True by exact E. rewrite filter_nil. by rewrite last_snoc.
  - rewrite filter_cons_False by exact E. rewrite filter_nil, app_nil_r. done.
Qed.
Lemma last_for_None k l : last_for k l = None <-> k ∉ (cookie_of <$> l).
Proof.
  unfold last_for. rewrite last_None. split.
  - intros H Hin. apply elem_of_list_fmap in Hin as (m & -> & Hm).
    assert (Hf : m ∈ filter (fun x => cookie_of x = cookie_of m) l) by (apply elem_of_list_filter; done).
    rewrite H in Hf. inversion Hf.
  - intros H. destruct (filter _ l) as [|m l'] eqn:E; [done|]. exfalso. apply H.
    assert (Hm : m ∈ filter (fun x => cookie_of x = k) l) by (rewrite E; constructor).
    apply elem_of_list_filter in Hm as [<- Hm]. by apply elem_of_list_fmap_1.
Qed.

(** The cache represents the history. *)
Definition represents (h : list call) (c : cache) : Prop :=
  (forall k, cur c !! k = last_for k (this_round h)) /\
  (forall k, prev c !! k = if last_for k (this_round h) then None else last_for k (last_round h)) /\
  cycles c = Z.of_nat (completed h).
Lemma completed_snoc h a :
  completed (h ++ [a]) = completed h + match a with CEndCycle => 1 | CUpdate _ => 0 end.
Proof. unfold completed. rewrite List.filter_app, app_length. by destruct a. Qed.

Lemma represents_new : represents [] new_cache.
Proof. split; [|split]; [| |done]; intros k; cbn; apply lookup_empty. Qed.

Lemma update_step h c m : represents h c ->
  good_reply h (CUpdate m) (match fst (update c m) with Ret r => RRecord r | _ => RError end) /\
  represents (h ++ [CUpdate m]) (snd (update c m)).
Proof.
  intros (Hc & Hp & Hn). unfold good_reply, update. case_decide as Hu.
  - rewrite (record_cookie_usable m Hu). pose proof (Hp (cookie_of m)) as Hk.
    assert (Hrep : forall p, (forall k, p !! k = if decide (cookie_of m = k) then None else prev c !! k) ->
              represents (h ++ [CUpdate m]) (mkcache (<[cookie_of m:=m]> (cur c)) p (cycles c))).
    { intros p Hpk. split; [|split]; cbn [cur prev cycles].
      - intros k. rewrite this_round_upd. rewrite decide_True by done. rewrite last_for_snoc.
        case_decide as E; [subst; apply lookup_insert|rewrite lookup_insert_ne by done; apply Hc].
      - intros k. rewrite this_round_upd, last_round_upd. rewrite decide_True by done. rewrite last_for_snoc, Hpk.
        case_decide as E; [done|apply Hp].
      - rewrite completed_snoc. lia. }
    destruct (prev c !! cookie_of m) as [ev|] eqn:Ep; cbn [fst snd]; (split; [congruence|]).
    + apply Hrep. intros k. case_decide as E; [subst; apply lookup_delete|by rewrite lookup_delete_ne].
    + apply Hrep. intros k. case_decide as E; [by subst|done].
  - rewrite (record_cookie_unusable m Hu). cbn [fst snd]. split; [done|]. split; [|split].
    + intros k. rewrite this_round_upd. rewrite decide_False by done. rewrite app_nil_r. apply Hc.
    + intros k. rewrite this_round_upd, last_round_upd. rewrite decide_False by done. rewrite app_nil_r. apply Hp.
    + rewrite completed_snoc. lia.
Qed.
Lemma end_step h c : represents h c ->
  good_reply h CEndCycle (RResidual (fst (end_cycle c))) /\ represents (h ++ [CEndCycle]) (snd (end_cycle c)).
Proof.
  intros (Hc & Hp & Hn). split; [by exists (prev c)|]. split; [|split]; cbn [end_cycle snd cur prev cycles].
  - intros k. rewrite this_round_end. apply lookup_empty.
  - intros k. rewrite this_round_end, last_round_end. cbn. apply Hc.
  - rewrite completed_snoc. lia.
Qed.

Lemma run_app c h1 h2 : run c (h1 ++ h2) =
  (fst (run c h1) ++ fst (run (snd (run c h1)) h2), snd (run (snd (run c h1)) h2)).
Proof.
  revert c. induction h1 as [|a h1 IH]; intros c; [cbn; by destruct (run c h2)|].
  destruct a as [m|]; cbn [app run]; [destruct (update c m) as [o c']|destruct (end_cycle c) as [o c']];
  rewrite IH; destruct (run c' h1) as [rs c'']; cbn [fst snd]; destruct (run c'' h2); reflexivity.
Qed.
Lemma run_represents h : represents h (snd (run new_cache h)).
Proof.
  induction h as [|a h IH] using rev_ind; [apply represents_new|]. rewrite run_app. cbn [snd].
  destruct a as [m|]; cbn [run].
  - destruct (update_step _ _ m IH) as [_ H]. destruct (update (snd (run new_cache h)) m) as [o c']. exact H.
  - destruct (end_step _ _ IH) as [_ H]. destruct (end_cycle (snd (run new_cache h))) as [o c']. exact H.
Qed.

(** C15 *)
Lemma cache_replies h a h' :
  exists r, fst (run new_cache (h ++ a :: h')) !! length h = Some r /\ good_reply h a r.
Proof.
  rewrite run_app. cbn [fst].
  assert (Hl : length (fst (run new_cache h)) = length h).
  { generalize new_cache. induction h as [|b h IH]; intros c; [done|].
    destruct b as [m|]; cbn [run]; [destruct (update c m) as [o c']|destruct (end_cycle c) as [o c']];
    specialize (IH c'); destruct (run c' h); cbn in *; lia. }
  rewrite lookup_app_r by lia. rewrite Hl, Nat.sub_diag.
  pose proof (run_represents h) as R. destruct a as [m|]; cbn [run].
  - destruct (update_step _ _ m R) as [G _]. destruct (update (snd (run new_cache h)) m) as [o c'].
    destruct (run c' h') as [rs c'']. cbn [fst]. eexists. split; [reflexivity|exact G].
  - destruct (end_step _ _ R) as [G _]. destruct (end_cycle (snd (run new_cache h))) as [o c'].
    destruct (run c' h') as [rs c'']. cbn [fst]. eexists. split; [reflexivity|exact G].
Qed.
Lemma cache_error_no_change c m : ~ usable m -> snd (update c m) = c.
Proof. intros H. unfold update. by rewrite (record_cookie_unusable m H). Qed.

(** C16 *)
Lemma cycle_count_spec h :
  cycle_count (snd (run new_cache h)) = Z.of_nat (completed h).
Proof. apply (run_represents h). Qed.

Lemma map_values_insert (m : gmap N cell) k x : m !! k = None ->
  (map_to_list (<[k:=x]> m)).*2 ≡ₚ x :: (map_to_list m).*2.
Proof. intros H. rewrite (map_to_list_insert m k x H). done. Qed.
Lemma map_values_delete (m : gmap N cell) k x : m !! k = Some x ->
  (map_to_list m).*2 ≡ₚ x :: (map_to_list (delete k m)).*2.
Proof. intros H. rewrite <- (map_to_list_delete m k x H). done. Qed.

Lemma handed_back_app r1 r2 : handed_back (r1 ++ r2) = handed_back r1 ++ handed_back r2.
Proof. unfold handed_back. by rewrite map_app, concat_app. Qed.
Lemma given_app h1 h2 : given (h1 ++ h2) = given h1 ++ given h2.
Proof. unfold given. apply omap_app. Qed.

Lemma once_per_round_app h1 h2 : once_per_round (h1 ++ h2) -> once_per_round h1.
Proof.
  unfold once_per_round, rounds. rewrite rounds_from_app. generalize (rounds_from [[]] h1). clear h1.
  induction h2 as [|a h2 IH]; intros acc; [done|]. cbn. destruct a as [m|]; intros H; apply IH in H.
  - destruct acc as [|r rs]; [done|]. inversion H as [|? ? H1 H2]; subst. constructor; [|done].
    rewrite fmap_app in H1. apply NoDup_app in H1. tauto.
  - by inversion H.
Qed.

Lemma conservation h : once_per_round h ->
  given h ≡ₚ handed_back (fst (run new_cache h)) ++ held (snd (run new_cache h)).
Proof.
  induction h as [|a h IH] using rev_ind; intros Ho; [done|].
  pose proof (once_per_round_app _ _ Ho) as Ho1. specialize (IH Ho1).
  pose proof (run_represents h) as (Hc & Hp & _).
  rewrite run_app, given_app. cbn [fst snd]. rewrite handed_back_app.
  rewrite IH. rewrite <- !app_assoc. apply Permutation_app_head.
  set (c := snd (run new_cache h)) in *. destruct a as [m|]; cbn [run].
  - unfold given. cbn [omap list_omap]. unfold update. case_decide as Hu.
    + rewrite (record_cookie_usable m Hu).
      assert (Hfresh : cur c !! cookie_of m = None).
      { rewrite Hc. apply last_for_None. intros Hin.
        unfold once_per_round, rounds in Ho. rewrite rounds_from_app in Ho. fold (rounds h) in Ho.
        destruct (rounds_cons h) as (rs & Er & _). rewrite Er in Ho. cbn in Ho. rewrite decide_True in Ho by done.
        inversion Ho as [|? ? H1 H2]; subst. rewrite fmap_app in H1. apply NoDup_app in H1 as (_ & Hd & _).
        apply (Hd _ Hin). cbn. constructor. }
      destruct (prev c !! cookie_of m) as [ev|] eqn:Ep; cbn [fst snd handed_back map concat app];
      unfold held; cbn [cur prev].
      * rewrite (map_values_insert _ _ m Hfresh), (map_values_delete _ _ ev Ep). cbn.
        rewrite <- !app_assoc. cbn. solve_Permutation.
      * rewrite (map_values_insert _ _ m Hfresh). cbn. solve_Permutation.
    + rewrite (record_cookie_unusable m Hu). cbn. by rewrite app_nil_r.
  - cbn [given omap list_omap end_cycle fst snd handed_back map concat]. unfold held. cbn [cur prev].
    rewrite map_to_list_empty. cbn. rewrite !app_nil_r. solve_Permutation.
Qed.
