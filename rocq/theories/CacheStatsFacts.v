(** The counters as another goroutine finds them. *)
From stdpp Require Import gmap.
From Coq Require Import NArith ZArith Lia.
From Verif Require Import GoBase GoBaseFacts GoTime Inetdiag Netlink Cache Saver SpecSaver SaverSteps SaverFiles SaverJobs SaverBlocks CacheStats.

Definition below (c c' : counters) : Prop :=
  n_total c <= n_total c' /\ n_new c <= n_new c' /\ n_diff c <= n_diff c' /\ n_expired c <= n_expired c'.
Definition sensible (c : counters) : Prop := n_new c + n_diff c <= n_total c.
(** The counters before and after one job *)
Definition stepped (c c' : counters) : Prop :=
  below c c' /\ (n_total c' = n_total c /\ n_new c' = n_new c /\ n_diff c' = n_diff c /\ n_expired c' <= S (n_expired c) \/
                 n_total c' = S (n_total c) /\ n_new c' + n_diff c' <= S (n_new c + n_diff c) /\ n_expired c' = n_expired c).
Lemma below_refl c : below c c. Proof. unfold below. lia. Qed.
Lemma below_trans a b c : below a b -> below b c -> below a c. Proof. unfold below. lia. Qed.

(** At most one increment *)
Definition near (c x : counters) : Prop := n_total x + n_new x + n_diff x + n_expired x <= S (n_total c + n_new c + n_diff c + n_expired c).
(** [l] goes up from [c] to [c']. *)
Fixpoint climbs (c : counters) (l : list counters) (c' : counters) : Prop :=
  match l with [] => c' = c | x :: l => (below c x /\ near c x) /\ sensible x /\ climbs x l c' end.
Lemma climbs_app a l1 b l2 c : climbs a l1 b -> climbs b l2 c -> climbs a (l1 ++ l2) c.
Proof.
  revert a. induction l1 as [|x l1 IH]; intros a; cbn; [intros ->; done|]. intros (B & S & A) H. split; [exact B|]. split; [exact S|]. by apply IH.
Qed.
Lemma climbs_below a l b : climbs a l b -> below a b.
Proof. revert a. induction l as [|x l IH]; intros a; cbn; [intros ->; apply below_refl|]. intros ([B _] & _ & A). eapply below_trans; eauto. Qed.
Lemma climbs_sensible a l b : sensible a -> climbs a l b -> sensible b.
Proof. revert a. induction l as [|x l IH]; intros a Ha; cbn; [by intros ->|]. intros (B & S & A). by eapply IH. Qed.
Lemma climbs_at a l b i x : climbs a l b -> l !! i = Some x -> sensible x /\ below a x /\ below x b.
Proof.
  revert a i. induction l as [|y l IH]; intros a i; [done|]. intros ([B _] & S & A). destruct i as [|i]; cbn.
  - intros [= ->]. split; [exact S|]. split; [exact B|]. by eapply climbs_below.
  - intros E. destruct (IH _ _ A E) as (H1 & H2 & H3). split; [exact H1|]. split; [|exact H3]. by eapply below_trans.
Qed.
Lemma climbs_two a l b i j x y : climbs a l b -> i <= j -> l !! i = Some x -> l !! j = Some y -> below x y.
Proof.
  revert a i j. induction l as [|z l IH]; intros a i j; [done|]. intros (B & S & A) Hij. destruct i as [|i], j as [|j]; cbn; try lia.
  - intros [= ->] [= ->]. apply below_refl.
  - intros [= ->] E. apply (climbs_at _ _ _ _ _ A E).
  - intros E1 E2. eapply (IH _ i j); eauto. lia.
Qed.
Lemma climbs_next a l b i x y : climbs a l b -> l !! i = Some x -> l !! S i = Some y -> below x y /\ near x y.
Proof.
  revert a i. induction l as [|z l IH]; intros a i; [done|]. intros (_ & _ & A). destruct i as [|i]; cbn.
  - intros [= ->]. destruct l as [|z' l]; [done|]. intros [= ->]. apply A.
  - intros E1 E2. exact (IH _ i A E1 E2).
Qed.
Lemma climbs_values c c' : sensible c -> stepped c c' -> climbs c (values c c') c' /\ sensible c'.
Proof.
  intros S [B H]. unfold values, sensible, stepped, near, below in *.
  destruct (Nat.ltb_spec (n_total c) (n_total c')); cbn; unfold sensible, below, near; cbn; repeat split; lia.
Qed.

Section Facts.
Variables (w : world) (cf : config).

Lemma rotate_stats c s : s_stats (rotate w c s).1 = s_stats s.
Proof. unfold rotate, now. destruct (0 <? cn_seq c)%nat; destruct (mkdir_ok _ _); cbn [negb]; try done; destruct (create_ok _ _); done. Qed.
Lemma queue_stats m s : s_stats (queue w cf m s) = s_stats s.
Proof.
  unfold queue. destruct (parse_idm _) as [i|e| |]; try done. destruct (N.eqb _ _); [done|]. destruct (nmarsh cf <? 1)%nat; [done|].
  set (k := cookie _). set (q := N.to_nat _). clearbody k q.
  match goal with |- context [let '(_, _) := ?x in _] => assert (H1 : s_stats x.2 = s_stats s) by (by destruct (s_conns s !! _)); destruct x as [c s1] end.
  cbn [snd] in H1. destruct (now w s1) as [t s2] eqn:N. assert (H2 : s_stats s2 = s_stats s) by (unfold now in N; injection N as <- <-; exact H1). clear N.
  match goal with |- context [let '(_, _) := ?x in _] => assert (H3 : s_stats x.2 = s_stats s) by (destruct (cn_writer c); [destruct (_ <? _)%Z|]; exact H2); destruct x as [c' s3] end.
  cbn [snd] in H3. destruct (cn_writer c'); [exact H3|]. pose proof (rotate_stats c' s3) as R. destruct (rotate w c' s3) as [s4 [c4|]]; cbn [fst] in R.
  - destruct (cn_writer c4); cbn; congruence.
  - congruence.
Qed.
Lemma end_conn_stats k s : s_stats (end_conn w cf k s) = s_stats s.
Proof. unfold end_conn, now. destruct (Nat.eqb _ _); [done|]. cbn. destruct (s_conns s !! k) as [c|]; [|done]. by destruct (cn_writer c). Qed.

Lemma stepped_refl c : stepped c c. Proof. unfold stepped, below. lia. Qed.
Lemma swap_stats view m s : stepped (s_stats s) (s_stats (swap_and_queue w cf view m s)).
Proof.
  set (t1 := mkcnt (S (n_total (s_stats s))) (n_new (s_stats s)) (n_diff (s_stats s)) (n_expired (s_stats s))).
  assert (T : stepped (s_stats s) t1) by (unfold stepped, below, t1; cbn; lia).
  unfold swap_and_queue. destruct (update _ m) as [[old|e| |] c]; try exact T.
  destruct old as [o|].
  - destruct (parse_idm _) as [i|e| |]; try exact T.
    match goal with |- context [compare (c_ar m) _] => idtac end.
    set (s1 := if negb _ && _ then _ else _). assert (H1 : s_stats s1 = t1) by (unfold s1; by destruct (negb _ && _)). clearbody s1.
    destruct (compare _ _) as [[]|e| |]; try (rewrite ?queue_stats; cbn; rewrite ?H1; exact T);
      rewrite queue_stats; cbn; rewrite H1; unfold stepped, below, t1; cbn; lia.
  - rewrite queue_stats. unfold stepped, below. cbn. lia.
Qed.
Lemma handle_msg_stats view t m s : stepped (s_stats s) (s_stats (handle_msg w cf view t m s)).
Proof.
  unfold handle_msg. destruct (s_dead s); [apply stepped_refl|]. destruct m as [m|]; [|apply stepped_refl].
  destruct (make_archival_record m (excl cf)) as [[r|]|e| |]; try apply stepped_refl.
  cbn zeta. match goal with |- stepped _ (s_stats (swap_and_queue _ _ _ ?c ?x)) => exact (swap_stats view c x) end.
Qed.
Lemma close_one_stats view km s : stepped (s_stats s) (s_stats (close_one w cf view km s)).
Proof.
  unfold close_one. destruct (s_dead s); [apply stepped_refl|]. destruct km as [k m].
  match goal with |- context [let '(_, _) := ?x in _] => assert (H1 : s_stats x.2 = s_stats s) by (destruct (negb _); [by destruct (s_closing s !! k)|done]); destruct x as [st s1] end.
  cbn [snd] in H1. match goal with |- context [s_dead ?x] => set (s2 := x) end.
  assert (H2 : s_stats s2 = s_stats s) by (unfold s2; rewrite end_conn_stats; exact H1). destruct (s_dead s2); [rewrite H2; apply stepped_refl|].
  unfold inc_expired. cbn [s_stats with_stats]. rewrite H2. unfold stepped, below. cbn. lia.
Qed.
Lemma values_of_climbs {A} (f : saver -> A -> saver) : (forall s a, stepped (s_stats s) (s_stats (f s a))) ->
  forall l s, sensible (s_stats s) -> climbs (s_stats s) (values_of f l s) (s_stats (foldl f s l)) /\ sensible (s_stats (foldl f s l)).
Proof.
  intros Hf. induction l as [|a l IH]; intros s Hs; [done|]. cbn [values_of foldl]. destruct (climbs_values _ _ Hs (Hf s a)) as [H1 H2].
  destruct (IH (f s a) H2) as [H3 H4]. split; [|exact H4]. by eapply climbs_app.
Qed.
Lemma end_round_stats s : s_stats (end_round w s).2 = s_stats s.
Proof. unfold end_round. destruct (s_dead s); [done|]. unfold range_keys. by destruct (end_cycle _). Qed.
Lemma report_stats t s : s_stats (report t s) = s_stats s.
Proof. unfold report. destruct (s_dead s); [done|]. destruct (_ <? _)%Z; [|done]. unfold report_one. repeat (destruct (_ || _)); done. Qed.
Lemma block_climbs b s : sensible (s_stats s) ->
  climbs (s_stats s) (block_values w cf b s) (s_stats (do_block w cf c_ar b s)) /\ sensible (s_stats (do_block w cf c_ar b s)).
Proof.
  intros Hs. unfold block_values, do_block, handle_type.
  destruct (values_of_climbs (fun s m => handle_msg w cf c_ar (V4Time b) m s) (fun s m => handle_msg_stats _ _ m s) (V4Messages b) s Hs) as [A1 B1].
  set (s4 := foldl _ s (V4Messages b)) in *.
  destruct (values_of_climbs (fun s m => handle_msg w cf c_ar (V6Time b) m s) (fun s m => handle_msg_stats _ _ m s) (V6Messages b) s4 B1) as [A2 B2].
  set (s6 := foldl _ s4 (V6Messages b)) in *.
  pose proof (end_round_stats s6) as E. destruct (end_round w s6) as [rs s7]. cbn [fst snd] in *. rewrite <- E in A2, B2.
  destruct (values_of_climbs (fun s km => close_one w cf c_ar km s) (fun s m => close_one_stats _ m s) rs s7 B2) as [A3 B3].
  rewrite report_stats. split; [|exact B3]. eapply climbs_app; [exact A1|]. eapply climbs_app; [exact A2|exact A3].
Qed.
Lemma loop_climbs bs : forall s, sensible (s_stats s) -> climbs (s_stats s) (loop_values w cf bs s) (s_stats (loop w cf bs s)).
Proof.
  induction bs as [|b bs IH]; intros s Hs; [done|]. cbn [loop_values loop foldl]. destruct (block_climbs b s Hs) as [A B].
  eapply climbs_app; [exact A|]. by apply IH.
Qed.
Lemma all_climbs bs : climbs (mkcnt 0 0 0 0) (all_values w cf bs) (s_stats (loop w cf bs new_saver)).
Proof.
  split; [split; [apply below_refl|unfold near; cbn; lia]|]. split; [unfold sensible; cbn; lia|]. apply loop_climbs. unfold sensible. cbn. lia.
Qed.
Lemma loop_values_app b1 b2 s : loop_values w cf (b1 ++ b2) s = loop_values w cf b1 s ++ loop_values w cf b2 (loop w cf b1 s).
Proof. revert s. induction b1 as [|b b1 IH]; intros s; [done|]. cbn. by rewrite IH, app_assoc. Qed.

Lemma copied_range bs a b c d r va vd : copied (all_values w cf bs) a b c d r ->
  all_values w cf bs !! a = Some va -> all_values w cf bs !! d = Some vd ->
  below va r /\ below r vd /\ n_total r = n_total va /\ n_expired r = n_expired vd /\
  n_new r + n_diff r <= n_total vd /\ below vd (s_stats (loop w cf bs new_saver)).
Proof.
  intros ((H1 & H2) & H3 & ua & ub & uc & ud & Ea & Eb & Ec & Ed & ->) Fa Fd. rewrite Fa in Ea. injection Ea as <-. rewrite Fd in Ed. injection Ed as <-.
  pose proof (all_climbs bs) as C.
  pose proof (climbs_two _ _ _ a b _ _ C H1 Fa Eb). pose proof (climbs_two _ _ _ b c _ _ C H2 Eb Ec). pose proof (climbs_two _ _ _ c d _ _ C H3 Ec Fd).
  destruct (climbs_at _ _ _ d _ C Fd) as (S & _ & B). unfold below, sensible in *. cbn. lia.
Qed.
Lemma all_values_grow b1 b2 i x : all_values w cf b1 !! i = Some x -> all_values w cf (b1 ++ b2) !! i = Some x.
Proof. unfold all_values. rewrite loop_values_app. intros H. rewrite app_comm_cons. by apply lookup_app_l_Some. Qed.
Lemma climbs_reach x l y : climbs x l y -> (x :: l) !! length l = Some y.
Proof. revert x. induction l as [|z l IH]; intros x; [by intros ->|]. intros (_ & _ & A). exact (IH _ A). Qed.
Lemma block_reached b1 b2 : exists i, all_values w cf (b1 ++ b2) !! i = Some (s_stats (loop w cf b1 new_saver)).
Proof.
  exists (length (loop_values w cf b1 new_saver)). apply all_values_grow. apply climbs_reach, loop_climbs. unfold sensible. cbn. lia.
Qed.
Lemma copied_order bs a b c d r a' b' c' d' r' : copied (all_values w cf bs) a b c d r -> copied (all_values w cf bs) a' b' c' d' r' -> d <= a' ->
  below r r'.
Proof.
  intros H H' Hd. assert (E : is_Some (all_values w cf bs !! a) /\ is_Some (all_values w cf bs !! d)) by (destruct H as (_ & _ & ? & ? & ? & ? & ? & _ & _ & ? & _); eauto).
  assert (E' : is_Some (all_values w cf bs !! a') /\ is_Some (all_values w cf bs !! d')) by (destruct H' as (_ & _ & ? & ? & ? & ? & ? & _ & _ & ? & _); eauto).
  destruct E as [[va Ea] [vd Ed]], E' as [[va' Ea'] [vd' Ed']].
  destruct (copied_range _ _ _ _ _ _ _ _ H Ea Ed) as (_ & B & _). destruct (copied_range _ _ _ _ _ _ _ _ H' Ea' Ed') as (B' & _).
  pose proof (climbs_two _ _ _ d a' _ _ (all_climbs bs) Hd Ed Ea') as M. eapply below_trans; [exact B|]. eapply below_trans; [exact M|exact B'].
Qed.
End Facts.
