(** C62: what LogCacheStats prints while the saver is at work. *)
From stdpp Require Import gmap.
From Coq Require Import NArith ZArith Lia.
From Verif Require Import GoBase Inetdiag Netlink Cache Saver SpecNetlink SpecCompare SpecCache SpecSaver SaverHistory Samples CacheStats CacheStatsFacts P_Saver.
Local Open Scope list_scope.

(** Each figure printed is one of the time of the call: the total the one at its
    beginning, new and diff between those at the beginning and those at the end.
    The figure for unchanged records is too small by at most the number of
    records handled during the call, and the figures add up. *)
Theorem C62_figures : forall w cf bs a b c d r va vd, copied (all_values w cf bs) a b c d r ->
  all_values w cf bs !! a = Some va -> all_values w cf bs !! d = Some vd ->
  let '(total, local, same, diff, new) := figures 0 0 r in
  total = Z.of_nat (n_total va) /\ local = 0%Z /\
  (Z.of_nat (n_new va) <= new <= Z.of_nat (n_new vd))%Z /\ (Z.of_nat (n_diff va) <= diff <= Z.of_nat (n_diff vd))%Z /\
  (total = same + diff + new)%Z /\
  (Z.of_nat (n_total va) - Z.of_nat (n_total vd) <= same <= total)%Z /\
  (same <= Z.of_nat (n_total va) - Z.of_nat (n_new va) - Z.of_nat (n_diff va))%Z.
Proof.
  intros w cf bs a b c d r va vd H Ha Hd. destruct (copied_range w cf bs a b c d r va vd H Ha Hd) as (B1 & B2 & T & X & N & _).
  unfold below in *. unfold figures, log_cache_stats. cbn [s_stats with_stats]. lia.
Qed.
Print Assumptions C62_figures.

(** The counters start at nothing and go up one increment at a time; a record is
    counted in the total before it is counted as new or as changed. *)
Theorem C62_increments : forall w cf bs, all_values w cf bs !! 0 = Some (mkcnt 0 0 0 0) /\
  (forall i v, all_values w cf bs !! i = Some v -> n_new v + n_diff v <= n_total v) /\
  forall i v v', all_values w cf bs !! i = Some v -> all_values w cf bs !! S i = Some v' ->
    v' = v \/ v' = mkcnt (S (n_total v)) (n_new v) (n_diff v) (n_expired v) \/ v' = mkcnt (n_total v) (S (n_new v)) (n_diff v) (n_expired v) \/
    v' = mkcnt (n_total v) (n_new v) (S (n_diff v)) (n_expired v) \/ v' = mkcnt (n_total v) (n_new v) (n_diff v) (S (n_expired v)).
Proof.
  intros w cf bs. pose proof (all_climbs w cf bs) as C. split; [done|]. split; [intros i v E; apply (climbs_at _ _ _ _ _ C E)|].
  intros i v v' E E'. destruct (climbs_next _ _ _ _ _ _ C E E') as [B N]. unfold below, near in *. destruct v as [t n d x], v' as [t' n' d' x']. cbn in *.
  destruct (decide (t' = t)) as [->|], (decide (n' = n)) as [->|], (decide (d' = d)) as [->|], (decide (x' = x)) as [->|]; try (exfalso; lia);
    [left|do 4 right|do 3 right; left|do 2 right; left|right; left]; f_equal; lia.
Qed.
Print Assumptions C62_increments.

(** If no record is handled during the call and none was being handled, they are
    the counters of that moment: none is negative. *)
Theorem C62_quiet : forall w cf bs a b c d r v, copied (all_values w cf bs) a b c d r ->
  all_values w cf bs !! a = Some v -> all_values w cf bs !! d = Some v ->
  r = v /\ let '(_, _, same, _, _) := figures 0 0 r in (0 <= same)%Z.
Proof.
  intros w cf bs a b c d r v H Ha Hd. destruct (copied_range w cf bs a b c d r v v H Ha Hd) as (B1 & B2 & T & X & N & _).
  unfold below in *. unfold figures, log_cache_stats. cbn [s_stats with_stats]. split; [|lia].
  destruct r, v; cbn in *. f_equal; lia.
Qed.
Print Assumptions C62_quiet.

(** A later call never prints a smaller total, new or diff. *)
Theorem C62_later : forall w cf bs a b c d r a' b' c' d' r',
  copied (all_values w cf bs) a b c d r -> copied (all_values w cf bs) a' b' c' d' r' -> d <= a' ->
  let '(total, _, _, diff, new) := figures 0 0 r in let '(total', _, _, diff', new') := figures 0 0 r' in
  (total <= total')%Z /\ (diff <= diff')%Z /\ (new <= new')%Z.
Proof.
  intros w cf bs a b c d r a' b' c' d' r' H H' Hd. pose proof (copied_order w cf bs _ _ _ _ _ _ _ _ _ _ H H' Hd) as B.
  unfold below in B. unfold figures, log_cache_stats. cbn [s_stats with_stats]. lia.
Qed.
Print Assumptions C62_later.

(** It never prints more than there is in the blocks the saver was given. *)
Theorem C62_bounded : forall w cf, fair_order w -> forall bs a b c d r, s_dead (loop w cf bs new_saver) = false ->
  copied (all_values w cf bs) a b c d r ->
  let '(total, _, _, diff, new) := figures 0 0 r in
  (total <= Z.of_nat (length (concat (map (accepted cf) bs))))%Z /\
  (diff + new <= Z.of_nat (count is_snapshot (s_log (loop w cf bs new_saver))))%Z.
Proof.
  intros w cf Hf bs a b c d r Hd H.
  assert (E : is_Some (all_values w cf bs !! a) /\ is_Some (all_values w cf bs !! d)) by (destruct H as (_ & _ & ? & ? & ? & ? & ? & _ & _ & ? & _); eauto).
  destruct E as [[va Ea] [vd Ed]]. destruct (copied_range _ _ _ _ _ _ _ _ _ _ H Ea Ed) as (B1 & B2 & _ & _ & _ & B3).
  destruct (loop_counted w cf Hf bs Hd) as [_ (H1 & H2 & H3 & H4)].
  unfold below in *. unfold figures, log_cache_stats. cbn [s_stats with_stats]. lia.
Qed.
Print Assumptions C62_bounded.

(** The counters as they are after every block are among those the call can
    find, and further blocks change nothing of what could be found before. *)
Theorem C62_blocks : forall w cf b1 b2, (exists i, all_values w cf (b1 ++ b2) !! i = Some (s_stats (loop w cf b1 new_saver))) /\
  (forall a b c d r, copied (all_values w cf b1) a b c d r -> copied (all_values w cf (b1 ++ b2)) a b c d r).
Proof.
  intros w cf b1 b2. split; [apply block_reached|]. intros a b c d r (H1 & H2 & va & vb & vc & vd & Ea & Eb & Ec & Ed & E).
  split; [exact H1|]. split; [exact H2|]. exists va, vb, vc, vd. repeat (split; [by apply all_values_grow|]). exact E.
Qed.
Print Assumptions C62_blocks.

Example c62_case : all_values w0 cf0 bs0 = [mkcnt 0 0 0 0; mkcnt 1 0 0 0; mkcnt 1 1 0 0; mkcnt 2 1 0 0; mkcnt 2 1 0 0; mkcnt 3 1 0 0; mkcnt 3 1 1 0;
  mkcnt 4 1 1 0; mkcnt 4 2 1 0; mkcnt 5 2 1 0; mkcnt 5 2 1 0; mkcnt 5 2 1 1].
Proof. vm_compute. reflexivity. Qed.
(** A call that begins while the first record is handled and ends with the
    third: it prints total 1, new 1, diff 1, same -1. *)
Example c62_copied : copied (all_values w0 cf0 bs0) 1 3 6 6 (mkcnt 1 1 1 0) /\ figures 0 0 (mkcnt 1 1 1 0) = (1, 0, -1, 1, 1)%Z.
Proof.
  split; [|reflexivity]. rewrite c62_case. split; [lia|]. split; [lia|]. eexists _, _, _, _. repeat (split; [reflexivity|]). reflexivity.
Qed.
Example c62_alive : fair_order w0 /\ s_dead (loop w0 cf0 bs0 new_saver) = false.
Proof. split; [apply w0_fair|vm_compute; reflexivity]. Qed.

(** The number of unchanged records it prints can be negative. *)
Theorem C62_negative_refuted : ~ (forall w cf, fair_order w -> forall bs a b c d r, s_dead (loop w cf bs new_saver) = false ->
  copied (all_values w cf bs) a b c d r -> let '(_, _, same, _, _) := figures 0 0 r in (0 <= same)%Z).
Proof.
  intros H. destruct c62_alive as [F D]. destruct c62_copied as [C E]. specialize (H w0 cf0 F bs0 _ _ _ _ _ D C). rewrite E in H. lia.
Qed.
Print Assumptions C62_negative_refuted.
