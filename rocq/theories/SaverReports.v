(** Where the values in the saver's reports to the event server come from. *)
From stdpp Require Import gmap.
From Coq Require Import NArith ZArith Lia.
From Verif Require Import GoBase GoTime Inetdiag Netlink SpecNetlink SpecCompare Cache Saver SpecSaver SaverSteps.

Section Reports.
Variables (w : world) (cf : config).

(** An Open is about a record r: its time, its cookie, its socket ID. *)
Definition opens (r : archival) (t : Z) (k : N) (id : sockid) : Prop :=
  t = ar_time r /\ k = rec_cookie r /\ exists m, parse_idm (ar_raw r) = Ret m /\ id = get_sockid (idiag_id m).
(** One of these records has this cookie. *)
Definition from (l : list archival) (k : N) : Prop := exists r, r ∈ l /\ k = rec_cookie r.
Definition sound (l : list archival) (ts : list Z) (a : action) : Prop :=
  match a with
  | AOpen t k id => exists r, r ∈ l /\ opens r t k id
  | AClose t k => t ∈ ts /\ (fair_order w -> from l k)
  | _ => True
  end.
Lemma sound_mono l l' ts ts' a : (forall r, r ∈ l -> r ∈ l') -> (forall t, t ∈ ts -> t ∈ ts') -> sound l ts a -> sound l' ts' a.
Proof. intros H T. destruct a; cbn; try done.
  - intros (r & Hr & O). eauto.
  - intros (Ht & F). split; [by apply T|]. intros Hf. destruct (F Hf) as (r & Hr & E). exists r. auto.
Qed.

(** The connections the saver knows all come from these records. *)
Definition known (l : list archival) (s : saver) : Prop :=
  (forall k c, s_conns s !! k = Some c -> from l k) /\
  (forall k m, cur (s_cache s) !! k = Some m -> from l k) /\ (forall k m, prev (s_cache s) !! k = Some m -> from l k).
Lemma known_same l s s' : s_conns s' = s_conns s -> s_cache s' = s_cache s -> known l s -> known l s'.
Proof. intros E1 E2 H. unfold known. by rewrite E1, E2. Qed.
Lemma known_set l k c s : from l k -> known l s -> known l (set_conn k c s).
Proof.
  intros F (K1 & K2). split; [|exact K2]. cbn. intros k' c' H. destruct (decide (k' = k)) as [->|N]; [exact F|].
  rewrite lookup_insert_ne in H by congruence. by eapply K1.
Qed.

Definition adds (l : list archival) (s s' : saver) : Prop :=
  known l s -> known l s' /\ exists e, s_log s' = s_log s ++ e /\ Forall (sound l (readings e)) e.
Lemma adds_refl l s s' : s_log s' = s_log s -> s_conns s' = s_conns s -> s_cache s' = s_cache s -> adds l s s'.
Proof. intros E E1 E2 K. split; [by eapply known_same|]. exists []. rewrite app_nil_r. split; [exact E|constructor]. Qed.
Lemma adds_trans l s1 s2 s3 : adds l s1 s2 -> adds l s2 s3 -> adds l s1 s3.
Proof.
  intros A B K. destruct (A K) as (K2 & e1 & E1 & F1). destruct (B K2) as (K3 & e2 & E2 & F2). split; [exact K3|].
  exists (e1 ++ e2). split; [by rewrite E2, E1, app_assoc|].
  assert (R : readings (e1 ++ e2) = readings e1 ++ readings e2) by apply omap_app. rewrite R.
  apply Forall_app. split; (eapply Forall_impl; [eassumption|]); intros a; apply sound_mono; auto; intros t Ht; apply elem_of_app; auto.
Qed.
Lemma adds_list l e s s' : s_log s' = s_log s ++ e -> s_conns s' = s_conns s -> s_cache s' = s_cache s -> (known l s -> Forall (sound l (readings e)) e) -> adds l s s'.
Proof. intros E E1 E2 H K. split; [by eapply known_same|]. exists e. split; [exact E|by apply H]. Qed.
Lemma adds_one l a s s' : s_log s' = s_log s ++ [a] -> s_conns s' = s_conns s -> s_cache s' = s_cache s -> sound l (readings [a]) a -> adds l s s'.
Proof. intros E E1 E2 H. eapply adds_list; [exact E|exact E1|exact E2|]. intros _. by constructor. Qed.
Lemma adds_set l k c s : from l k -> adds l s (set_conn k c s).
Proof. intros F K. split; [by apply known_set|]. exists []. rewrite app_nil_r. split; [reflexivity|constructor]. Qed.
Lemma adds_fold {A} l (f : saver -> A -> saver) xs s : (forall s a, a ∈ xs -> adds l s (f s a)) -> adds l s (foldl f s xs).
Proof.
  revert s. induction xs as [|x xs IH]; intros s H; [by apply adds_refl|]. cbn. eapply adds_trans; [apply H; by left|]. apply IH. intros s' a Ha. apply H. by right.
Qed.

Lemma now_adds l s : adds l s (now w s).2.
Proof. by eapply adds_one. Qed.
Lemma rotate_adds l c s : adds l s (rotate w c s).1.
Proof.
  unfold rotate.
  lazymatch goal with |- context [let '(_, _) := ?x in _] => assert (H1 : adds l s x.2) end.
  { destruct (0 <? cn_seq c)%nat; [|by apply adds_refl]. pose proof (now_adds l s) as H. destruct (now w s). exact H. }
  destruct (if (0 <? cn_seq c)%nat then _ else _) as [dp s1]. cbn [snd] in H1. eapply adds_trans; [exact H1|].
  destruct (mkdir_ok w _); cbn [negb].
  - destruct (create_ok w _); cbn [negb fst].
    + match goal with |- adds _ ?a _ => apply (adds_list _ ([AMkdir true dp; ACreate (p_writer (s_pos a)) (file_path dp (from_cookie (uuid_prefix w) (cookie_uint64 (cn_id c))) (cn_seq c)); AHeader (p_writer (s_pos a)) (mkmeta (from_cookie (uuid_prefix w) (cookie_uint64 (cn_id c))) (Z.of_nat (cn_seq c)) (cn_start c)); ANewFile])) end;
        [cbn; rewrite <- !app_assoc; reflexivity|reflexivity|reflexivity|]. intros _. repeat constructor.
    + match goal with |- adds _ ?a _ => apply (adds_list _ ([AMkdir true dp; ACreateFail (file_path dp (from_cookie (uuid_prefix w) (cookie_uint64 (cn_id c))) (cn_seq c))])) end;
        [cbn; rewrite <- !app_assoc; reflexivity|reflexivity|reflexivity|]. intros _. repeat constructor.
  - by eapply adds_one.
Qed.
Lemma queue_adds l msg s : c_ar msg ∈ l -> adds l s (queue w cf msg s).
Proof.
  intros Hin. unfold queue. destruct (parse_idm (ar_raw (c_ar msg))) as [m|e| |] eqn:Ep; [|by apply adds_refl..].
  destruct (parse_cell _ _ Ep) as (_ & Ek & _ & _).
  assert (F : from l (cookie (idiag_id m))) by (exists (c_ar msg); split; [exact Hin|exact Ek]).
  destruct (N.eqb _ 0); [by apply adds_refl|]. destruct (Nat.ltb _ 1); [by apply adds_refl|].
  lazymatch goal with |- adds _ _ (let '(_, _) := ?x in _) => assert (H1 : adds l s x.2) end.
  { destruct (s_conns s !! _) as [c|]; [by apply adds_refl|]. cbn [now snd].
    eapply adds_trans; [|by apply adds_set].
    eapply (adds_list _ [_; _]); [cbn; rewrite <- !app_assoc; cbn; reflexivity|reflexivity|reflexivity|].
    intros _. constructor; [done|]. constructor; [|done]. cbn. exists (c_ar msg). split; [exact Hin|]. split; [done|]. split; [exact Ek|]. exists m. split; [exact Ep|reflexivity]. }
  destruct (match s_conns s !! _ with Some c => _ | None => _ end) as [c s1]. cbn [snd] in H1. eapply adds_trans; [exact H1|]. clear H1 s.
  pose proof (now_adds l s1) as H1. destruct (now w s1) as [t s]. cbn [snd] in H1. eapply adds_trans; [exact H1|]. clear H1 s1.
  lazymatch goal with |- adds _ _ (let '(_, _) := ?x in _) => assert (H1 : adds l s x.2) end.
  { destruct (cn_writer c); [|by apply adds_refl]. destruct (_ <? t)%Z; [|by apply adds_refl].
    cbn [snd]. eapply adds_trans; [|by apply adds_set]. by eapply adds_one. }
  destruct (match cn_writer c with Some wr => _ | None => _ end) as [c1 s1]. cbn [snd] in H1. eapply adds_trans; [exact H1|]. clear H1 s.
  destruct (cn_writer c1) as [wr|]; [by eapply adds_one|].
  pose proof (rotate_adds l c1 s1) as H1. destruct (rotate w c1 s1) as [s2 [c2|]]; cbn [fst] in H1; [|exact H1].
  eapply adds_trans; [exact H1|]. eapply adds_trans; [apply (adds_set _ _ c2 _ F)|].
  destruct (cn_writer c2); [by eapply adds_one|by apply adds_refl].
Qed.
Lemma end_conn_adds l k s : (fair_order w -> from l k) -> adds l s (end_conn w cf k s).
Proof.
  intros F. unfold end_conn. cbn [now].
  set (s1 := emit _ _). assert (H : adds l s s1).
  { eapply (adds_list _ [_; _]); [cbn; rewrite <- app_assoc; cbn; reflexivity|reflexivity|reflexivity|].
    intros _. constructor; [done|]. constructor; [|done]. split; [left|exact F]. }
  destruct (Nat.eqb (nmarsh cf) 0); [exact H|]. destruct (s_conns s1 !! k) as [c|]; [|exact H]. destruct (cn_writer c); [|exact H].
  eapply adds_trans; [exact H|]. intros (K1 & K2). split.
  - split; [|exact K2]. cbn. intros k' c' Hk. apply lookup_delete_Some in Hk as [_ Hk]. by eapply K1.
  - eexists [_]. split; [reflexivity|]. by constructor.
Qed.
Lemma update_known l c pm old c' : c_ar pm ∈ l -> update c pm = (Ret old, c') ->
  (forall k m, cur c !! k = Some m -> from l k) -> (forall k m, prev c !! k = Some m -> from l k) ->
  (forall k m, cur c' !! k = Some m -> from l k) /\ (forall k m, prev c' !! k = Some m -> from l k).
Proof.
  intros Hin. unfold update, record_cookie. destruct (parse_idm (ar_raw (c_ar pm))) as [m|e| |] eqn:Ep; cbn [bind]; [|discriminate..].
  destruct (parse_cell _ _ Ep) as (_ & Ek & _ & _).
  assert (F : from l (cookie (idiag_id m))) by (exists (c_ar pm); split; [exact Hin|exact Ek]).
  assert (G : forall c0 : gmap N cell, (forall k x, c0 !! k = Some x -> from l k) -> forall k x, <[cookie (idiag_id m) := pm]> c0 !! k = Some x -> from l k).
  { intros c0 H0 k x H. apply lookup_insert_Some in H as [[<- _]|[_ H]]; [exact F|by eapply H0]. }
  destruct (prev c !! _) as [ev|]; intros [= <- <-] H1 H2; cbn; (split; [by apply G|]); [|exact H2].
  intros k x H. apply lookup_delete_Some in H as [_ H]. by eapply H2.
Qed.
Lemma adds_cache l s c : (known l s -> (forall k m, cur c !! k = Some m -> from l k) /\ (forall k m, prev c !! k = Some m -> from l k)) ->
  adds l s (with_cache c s).
Proof. intros H K. split; [split; [apply K|by apply H]|]. exists []. rewrite app_nil_r. split; [reflexivity|constructor]. Qed.
Lemma swap_adds l view pm s : c_ar pm ∈ l -> adds l s (swap_and_queue w cf view pm s).
Proof.
  intros Hin. unfold swap_and_queue. destruct (update (s_cache (inc_total s)) pm) as [[old|e| |] c] eqn:U; [|by apply adds_refl..].
  assert (C : adds l s (with_cache c (inc_total s))).
  { eapply adds_trans; [|apply adds_cache]; [by apply adds_refl|]. intros (_ & K1 & K2). by eapply update_known. }
  assert (Q : forall s0, s_log s0 = s_log s -> s_conns s0 = s_conns s -> s_cache s0 = c -> adds l s (queue w cf pm (emit ASnapshot s0))).
  { intros s0 E0 E1 E2. eapply adds_trans; [exact C|]. eapply adds_trans; [|by apply queue_adds]. by eapply adds_one; [cbn; rewrite E0|..]. }
  assert (R : forall s0, s_log s0 = s_log s -> s_conns s0 = s_conns s -> s_cache s0 = c -> adds l s s0).
  { intros s0 E0 E1 E2. eapply adds_trans; [exact C|]. by apply adds_refl. }
  destruct old as [oldc|]; [|by apply Q].
  destruct (parse_idm (ar_raw (c_ar pm))) as [m|e| |]; [|by apply R..].
  destruct (_ && _); (destruct (compare _ _) as [[]|?| |]; lazymatch goal with |- adds _ _ (queue _ _ _ _) => by apply Q | |- _ => by apply R end).
Qed.
Lemma handle_adds l view t m s : (forall r, r ∈ accepted_of (excl cf) t [m] -> r ∈ l) -> adds l s (handle_msg w cf view t m s).
Proof.
  intros H. unfold handle_msg. destruct (s_dead s); [by apply adds_refl|]. destruct m as [msg|]; [|by apply adds_refl].
  unfold accepted_of in H. cbn in H. destruct (make_archival_record msg (excl cf)) as [[ar|]|e| |]; [|by apply adds_refl..].
  eapply adds_trans; [|apply swap_adds; apply H; by left]. by apply adds_refl.
Qed.
Lemma accepted_of_one ex t msgs m r : m ∈ msgs -> r ∈ accepted_of ex t [m] -> r ∈ accepted_of ex t msgs.
Proof.
  intros Hm Hr. apply elem_of_list_omap in Hr as (m' & Hm' & E). apply elem_of_list_singleton in Hm' as ->. apply elem_of_list_omap. eauto.
Qed.
Lemma type_adds l t msgs s : (forall r, r ∈ accepted_of (excl cf) t msgs -> r ∈ l) -> adds l s (handle_type w cf c_ar t msgs s).
Proof. intros H. apply adds_fold. intros s' m Hm. apply handle_adds. intros r Hr. apply H. by eapply accepted_of_one. Qed.
Lemma close_one_adds l view km s : (fair_order w -> from l km.1) -> adds l s (close_one w cf view km s).
Proof.
  intros F. unfold close_one. destruct (s_dead s); [by apply adds_refl|]. destruct km as [k m].
  set (s1 := if negb (has_diag_info (view m)) then _ else _).
  assert (E : s_log s1.2 = s_log s /\ s_conns s1.2 = s_conns s /\ s_cache s1.2 = s_cache s).
  { unfold s1. destruct (negb _); [|done]. by destruct (s_closing s !! k). }
  destruct s1 as [st s1]. cbn [snd] in E. destruct E as (E1 & E2 & E3). set (s2 := end_conn w cf k _).
  assert (H : adds l s s2). { eapply adds_trans; [|apply end_conn_adds, F]. by apply adds_refl. }
  destruct (s_dead s2); [exact H|]. eapply adds_trans; [exact H|by apply adds_refl].
Qed.
Lemma report_adds l t s : adds l s (report t s).
Proof.
  unfold report. destruct (s_dead s); [by apply adds_refl|]. destruct (_ <? _)%Z; [|by apply adds_refl].
  unfold report_one. destruct (_ || _); destruct (_ || _); (eapply (adds_list _ [_; _]); [cbn; rewrite <- ?app_assoc; cbn; reflexivity|reflexivity|reflexivity|intros _; repeat constructor]).
Qed.
(** With a step after which the rest of the block is about known connections *)
Lemma adds_then l s s' s'' : adds l s s' -> (known l s' -> adds l s' s'') -> adds l s s''.
Proof. intros A B K. refine (adds_trans l s s' s'' A (B _) K). apply (A K). Qed.
Lemma end_round_adds l s : known l s -> adds l s (end_round w s).2 /\ forall km, km ∈ (end_round w s).1 -> from l km.1.
Proof.
  intros (K1 & K2 & K3). unfold end_round. destruct (s_dead s); cbn.
  - split; [by apply adds_refl|]. intros km H. by apply elem_of_nil in H.
  - split.
    + intros _. split; [split; [exact K1|split]; [|exact K2]|].
      * cbn. intros k m H. by rewrite lookup_empty in H.
      * eexists [_]. split; [reflexivity|]. by constructor.
    + intros km H. apply elem_of_list_omap in H as (k & _ & E). destruct (prev (s_cache s) !! k) as [m|] eqn:Ep; [|discriminate].
      injection E as <-. by eapply K3.
Qed.
Lemma block_adds l b s : (forall r, r ∈ accepted cf b -> r ∈ l) -> adds l s (do_block w cf c_ar b s).
Proof.
  intros Hl. unfold do_block. eapply adds_trans; [apply type_adds; intros r Hr; apply Hl, elem_of_app; left; exact Hr|].
  eapply adds_trans; [apply type_adds; intros r Hr; apply Hl, elem_of_app; right; exact Hr|].
  set (s1 := handle_type _ _ _ _ _ _). intros K. destruct (end_round_adds l s1 K) as [H F]. revert K.
  destruct (end_round w s1) as [res s2]. cbn [fst snd] in H, F. eapply adds_trans; [exact H|].
  eapply adds_trans; [|apply report_adds]. apply adds_fold. intros s' km Hkm. apply close_one_adds. intros _. by apply F.
Qed.
Lemma loop_adds bs s : adds (concat (map (accepted cf) bs)) s (loop w cf bs s).
Proof.
  unfold loop. apply adds_fold. intros s' b Hb. apply block_adds. intros r Hr.
  apply elem_of_list_In, in_concat. exists (accepted cf b). split; [apply in_map, elem_of_list_In, Hb|apply elem_of_list_In, Hr].
Qed.
Lemma close_adds l s : adds l s (close w cf s).
Proof.
  unfold close. destruct (s_dead s); [by apply adds_refl|]. unfold range_keys. cbn [fst snd].
  set (s1 := with_pos _ s). set (s2 := foldl _ s1 _).
  assert (H : adds l s s2).
  { intros K. revert K. eapply adds_then; [by apply (adds_refl _ s s1)|]. intros (K & _). apply adds_fold. intros s' k Hk. unfold end_conn_alive. destruct (s_dead s'); [by apply adds_refl|].
    apply end_conn_adds. intros Hf. rewrite (Hf _ _) in Hk. apply elem_of_list_fmap in Hk as ([k' c] & -> & Hk). apply elem_of_map_to_list in Hk. by eapply K. }
  eapply adds_trans; [exact H|]. unfold close_chans. destruct (s_dead s2); [by apply adds_refl|].
  eapply adds_trans; [|by eapply adds_one]. apply adds_fold. intros s' q _. by eapply adds_one.
Qed.
Lemma new_known l : known l new_saver.
Proof. split; [|split]; intros k m H; cbn in H; by rewrite lookup_empty in H. Qed.
(** Every Open is about an accepted record of some block; every Close carries a
    reading of the clock and the cookie of an accepted record. *)
Lemma run_sound bs : Forall (sound (concat (map (accepted cf) bs)) (readings (s_log (message_saver_loop w cf bs)))) (s_log (message_saver_loop w cf bs)).
Proof.
  destruct (adds_trans _ _ _ _ (loop_adds bs new_saver) (close_adds (concat (map (accepted cf) bs)) (loop w cf bs new_saver))) as (_ & e & E & F); [apply new_known|].
  unfold message_saver_loop. rewrite E. exact F.
Qed.
End Reports.
