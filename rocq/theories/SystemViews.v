(** What the saver reads while marshallers run makes no difference. *)
From stdpp Require Import gmap.
From Coq Require Import NArith ZArith Lia.
From Verif Require Import GoBase GoBaseFacts GoTime Inetdiag Netlink SpecNetlink SpecCompare RecordFacts CompareFacts
  Cache SpecCache CacheFacts Saver SpecSaver SaverSteps SaverFiles SaverJobs SaverBlocks SaverRuns System.

Lemma sees_refl r : sees r r.
Proof.
  split; [done|]. split; [done|]. split.
  - induction (ar_attrs r) as [|[x|] l IH]; constructor; done.
  - destruct (ar_raw r); done.
Qed.
Lemma same_vis_trans a b c : same_vis a b -> same_vis b c -> same_vis a c.
Proof. destruct a, b, c; cbn; try done. congruence. Qed.
Lemma sees_trans a b c : sees a b -> sees b c -> sees a c.
Proof.
  intros (A1 & A2 & A3 & A4) (B1 & B2 & B3 & B4). split; [congruence|]. split; [congruence|]. split.
  - eapply (Forall2_transitive same_vis same_vis same_vis); [|exact A3|exact B3]. intros x y z. apply same_vis_trans.
  - destruct (ar_raw a), (ar_raw b), (ar_raw c); try done. destruct A4 as (P1 & P2 & P3), B4 as (Q1 & Q2 & Q3). repeat split; congruence.
Qed.

Lemma sees_slot r r' t : sees r r' -> slot t r' = slot t r.
Proof.
  intros (_ & _ & H & _). unfold slot. revert t. induction H as [|x y l l' Hx _ IH]; intros t; [by destruct t|].
  destruct t as [|t]; cbn [nth]; [|apply IH]. destruct x, y; cbn in Hx; [by rewrite Hx|done|done|done].
Qed.
Lemma sees_len r r' : sees r r' -> length (ar_attrs r') = length (ar_attrs r).
Proof. intros (_ & _ & H & _). symmetry. exact (Forall2_length _ _ _ H). Qed.
Lemma sees_header r r' : sees r r' -> length (header r') = length (header r) /\ hdr_state (header r') = hdr_state (header r).
Proof.
  intros (_ & _ & _ & H). unfold header. destruct (ar_raw r) as [b|], (ar_raw r') as [b'|]; try done.
  destruct H as (H1 & H2 & _). split; [exact H1|]. unfold hdr_state, at_.
  assert (E : forall x : bytes, firstn 1 (skipn 1 x) = skipn 1 (firstn 2 (firstn 8 x))).
  { intros x. rewrite firstn_firstn. change (Init.Nat.min 2 8) with 2. by destruct x as [|? [|]]. }
  by rewrite !E, H2.
Qed.
Lemma sees_comparable r r' : sees r r' -> comparable r -> comparable r'.
Proof.
  intros H [C1 C2]. destruct (sees_header _ _ H) as [L _]. split; [rewrite L; exact C1|].
  intros i. rewrite (sees_slot _ _ 2 H). apply C2.
Qed.
Lemma sees_diag r r' : sees r r' -> has_diag_info r' = has_diag_info r.
Proof. intros H. unfold has_diag_info. by rewrite (sees_len _ _ H). Qed.
Lemma sees_stats r r' : sees r r' -> get_stats r' = get_stats r.
Proof.
  intros H. unfold get_stats. rewrite (sees_len _ _ H). destruct (_ <=? _); [reflexivity|].
  pose proof (sees_slot _ _ 2 H) as S. unfold slot in S. unfold INET_DIAG_INFO in *.
  destruct (nth 2 (ar_attrs r') None) as [x|], (nth 2 (ar_attrs r) None) as [y|]; try discriminate S; [|reflexivity].
  injection S as S. unfold len_opt, vis_opt. rewrite S. reflexivity.
Qed.
Lemma verdict_sees old old' new c : sees old old' -> verdict old new c -> verdict old' new c.
Proof.
  intros H V. pose proof (sees_slot _ _ 2 H) as S2. pose proof (sees_len _ _ H) as L. destruct (sees_header _ _ H) as [_ St].
  destruct V as [V|V1 V2|i j V1 V2 V3 V4|i j V1 V2 V3 V4 V5|i j V1 V2 V3 V4 V5|i j t c V1 V2 V3 V4 V5 V6 V7 V8|V].
  - apply v_state. congruence.
  - apply v_noinfo; [congruence|]. rewrite S2. exact V2.
  - eapply v_counter; [congruence|rewrite S2; exact V2|exact V3|exact V4].
  - eapply v_more; [congruence|rewrite S2; exact V2|exact V3|exact V4|lia].
  - eapply v_fewer; [congruence|rewrite S2; exact V2|exact V3|exact V4|lia].
  - eapply v_slot; [congruence|rewrite S2; exact V2|exact V3|exact V4|lia|exact V6| |].
    + intros u Hu N. rewrite (sees_slot _ _ u H). by apply V7.
    + rewrite (sees_slot _ _ t H). exact V8.
  - apply v_same. destruct V as (W1 & (i & j & W2 & W3 & W4) & W5 & W6). split; [congruence|]. split.
    + exists i, j. rewrite S2. done.
    + split; [lia|]. intros t N. rewrite (sees_slot _ _ t H). by apply W6.
Qed.
Lemma compare_sees old old' new : sees old old' -> comparable old -> comparable new ->
  compare new (Some old') = compare new (Some old).
Proof.
  intros H Co Cn. destruct (compare_sound new old Co Cn) as (c & E & V). rewrite E.
  apply compare_iff; [by eapply sees_comparable|exact Cn|]. by eapply verdict_sees.
Qed.

(** Jobs do not depend on the view. *)
Section Jobs.
Variables (w : world) (cf : config).
Definition cells_ok (s : saver) : Prop := forall k c, cur (s_cache s) !! k = Some c \/ prev (s_cache s) !! k = Some c -> comparable (c_ar c).
Definition good_view (s : saver) (view : cell -> archival) : Prop := forall k c, prev (s_cache s) !! k = Some c -> sees (c_ar c) (view c).

Lemma swap_view view pm s : good_view s view -> cells_ok s -> comparable (c_ar pm) ->
  swap_and_queue w cf view pm s = swap_and_queue w cf c_ar pm s.
Proof.
  intros Hv Hc Hp. unfold swap_and_queue. destruct (update (s_cache (inc_total s)) pm) as [o c] eqn:E.
  destruct o as [[oldc|]|e| |]; try reflexivity.
  assert (Ho : comparable (c_ar oldc) /\ sees (c_ar oldc) (view oldc)).
  { unfold update in E. destruct (record_cookie (c_ar pm)) as [k|e| |]; try discriminate E.
    change (s_cache (inc_total s)) with (s_cache s) in E.
    destruct (prev (s_cache s) !! k) eqn:Ek; [|discriminate E]. injection E as -> _.
    split; [exact (Hc k oldc (or_intror Ek))|exact (Hv k oldc Ek)]. }
  destruct Ho as [Ho Hs].
  rewrite (sees_diag _ _ Hs), (sees_stats _ _ Hs), (compare_sees _ _ _ Hs Ho Hp). reflexivity.
Qed.
Definition msg_ok (m : option nlmsg) : Prop :=
  forall msg ar, m = Some msg -> make_archival_record msg (excl cf) = Ret (Some ar) -> comparable ar.
Lemma handle_view view t m s : good_view s view -> cells_ok s -> msg_ok m -> handle_msg w cf view t m s = handle_msg w cf c_ar t m s.
Proof.
  intros Hv Hc Hm. unfold handle_msg. destruct (s_dead s); [reflexivity|]. destruct m as [msg|]; [|reflexivity].
  destruct (make_archival_record msg (excl cf)) as [[ar|]|e| |] eqn:E; try reflexivity.
  apply swap_view; [exact Hv|exact Hc|]. exact (Hm msg ar eq_refl E).
Qed.
Lemma close_view view km s : sees (c_ar km.2) (view km.2) -> close_one w cf view km s = close_one w cf c_ar km s.
Proof.
  intros Hv. unfold close_one. destruct (s_dead s); [reflexivity|]. destruct km as [k m].
  cbn [snd] in Hv. rewrite (sees_diag _ _ Hv), (sees_stats _ _ Hv). reflexivity.
Qed.
End Jobs.
