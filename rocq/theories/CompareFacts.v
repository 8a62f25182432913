(** Proofs about Compare, HasDiagInfo, GetStats, GetSockID and Anonymize. *)
From Coq Require Import Strings.String List NArith ZArith Bool Arith Lia ZifyN ZifyNat ZifyBool.
From Verif Require Import GoBase GoBaseFacts Layout Tcp NetIP Inetdiag Netlink SpecNetlink NetlinkFacts RecordFacts SpecCompare.
Import ListNotations.
Local Open Scope list_scope.
Local Open Scope nat_scope.

Lemma offsets : lastDataSentOffset = 44 /\ pmtuOffset = 60 /\ busytimeOffset = 168 /\
  bytesReceivedOffset = 128 /\ bytesSentOffset = 200.
Proof. repeat split. Qed.

Definition cap_of (s : gslice) : nat := length (vis s) + length (spare s).

Lemma slice_bytes_ok s lo hi : lo <= hi -> hi <= length (vis s) -> slice_bytes s lo hi = Ret (at_ lo (hi - lo) (vis s)).
Proof.
  intros. unfold slice_bytes. rewrite app_length.
  replace ((hi <? lo) || (length (vis s) + length (spare s) <? hi)) with false by lia.
  rewrite sub_app_l by lia. reflexivity.
Qed.
Lemma slice_bytes_cap s lo hi : lo <= hi -> hi <= cap_of s -> exists b, slice_bytes s lo hi = Ret b.
Proof.
  intros. unfold cap_of in *. unfold slice_bytes. rewrite app_length.
  replace ((hi <? lo) || (length (vis s) + length (spare s) <? hi)) with false by lia. eauto.
Qed.
Lemma slice_bytes_panic s lo hi : lo <= hi -> cap_of s < hi -> slice_bytes s lo hi = Panic.
Proof.
  intros. unfold cap_of in *. unfold slice_bytes. rewrite app_length.
  replace ((hi <? lo) || (length (vis s) + length (spare s) <? hi)) with true by lia. reflexivity.
Qed.

(** ** The slot loop *)
Definition oslot (o : option gslice) : option bytes := match o with Some s => Some (vis s) | None => None end.

Inductive slots_verdict (tp : nat) (prev cur : list (option gslice)) : change -> Prop :=
| sv_diff t c : t + tp <> 2 -> (forall u, u < t -> u + tp <> 2 -> oslot (nth u prev None) = oslot (nth u cur None)) ->
    slot_change (oslot (nth t prev None)) (oslot (nth t cur None)) c -> slots_verdict tp prev cur c
| sv_same : (forall u, u + tp <> 2 -> oslot (nth u prev None) = oslot (nth u cur None)) -> slots_verdict tp prev cur NoMajorChange.

Lemma sv_cons tp a b prev cur c : (tp = 2 \/ oslot a = oslot b) -> slots_verdict (S tp) prev cur c ->
  slots_verdict tp (a :: prev) (b :: cur) c.
Proof.
  intros Hab [t c' H1 H2 H3|H].
  - apply (sv_diff tp _ _ (S t)); [lia| |exact H3].
    intros [|u] Hu Hn; cbn [nth]; [destruct Hab; [lia|assumption]|]. apply H2; lia.
  - apply sv_same. intros [|u] Hn; cbn [nth]; [destruct Hab; [lia|assumption]|]. apply H. lia.
Qed.

Lemma compare_slots_verdict prev : forall tp cur, length prev = length cur ->
  slots_verdict tp prev cur (compare_slots tp prev cur).
Proof.
  induction prev as [|a prev IH]; intros tp [|b cur] Hl; try discriminate.
  - cbn. apply sv_same. intros [|u] _; reflexivity.
  - cbn [compare_slots]. injection Hl as Hl. change INET_DIAG_INFO with 2.
    destruct (tp =? 2) eqn:E.
    + apply sv_cons; [left; lia|]. apply IH, Hl.
    + destruct a as [a|], b as [b|].
      * destruct (length (vis a) =? length (vis b)) eqn:El; cbn [negb].
        -- destruct (bytes_eqb (vis a) (vis b)) eqn:Eb; cbn [negb].
           ++ apply bytes_eqb_eq in Eb. apply sv_cons; [right; cbn; congruence|]. apply IH, Hl.
           ++ apply (sv_diff _ _ _ 0); [lia|lia|]. cbn. apply sc_other; [lia|].
              intros K. rewrite K, bytes_eqb_refl in Eb. discriminate.
        -- apply (sv_diff _ _ _ 0); [lia|lia|]. cbn. apply sc_len. lia.
      * apply (sv_diff _ _ _ 0); [lia|lia|]. cbn. constructor.
      * apply (sv_diff _ _ _ 0); [lia|lia|]. cbn. constructor.
      * apply sv_cons; [right; reflexivity|]. apply IH, Hl.
Qed.

(** ** Compare *)
Lemma slot2_some r i : slot 2 r = Some i -> 2 < length (ar_attrs r).
Proof.
  intros H. destruct (le_lt_dec (length (ar_attrs r)) 2); [|assumption].
  unfold slot in H. rewrite nth_overflow in H by assumption. discriminate.
Qed.

Lemma compare_unfold new old : 72 <= length (header old) -> 72 <= length (header new) ->
  compare new (Some old) =
  if negb (N.eqb (hdr_state (header old)) (hdr_state (header new))) then Ret IDiagStateChange
  else match nth 2 (ar_attrs old) None, nth 2 (ar_attrs new) None with
    | Some a, Some b =>
      bind (slice_bytes a 60 168) (fun a1 =>
      bind (slice_bytes b 60 168) (fun b1 =>
      if negb (bytes_eqb a1 b1) then Ret StateOrCounterChange
      else
      bind (slice_bytes a 0 44) (fun a2 =>
      bind (slice_bytes b 0 44) (fun b2 =>
      if negb (bytes_eqb a2 b2) then Ret StateOrCounterChange
      else if (length (ar_attrs old) <? length (ar_attrs new))%nat then Ret NewAttribute
      else if (length (ar_attrs new) <? length (ar_attrs old))%nat then Ret LostAttribute
      else Ret (compare_slots 0 (ar_attrs old) (ar_attrs new))))))
    | _, _ => Ret NoTCPInfo
    end.
Proof.
  intros Ho Hn. unfold compare. unfold header in *.
  destruct (ar_raw old) as [ro|]; [|cbn in Ho; lia]. destruct (ar_raw new) as [rn|]; [|cbn in Hn; lia].
  rewrite !parse_idm_ok by assumption. cbn [bind].
  change (idiag_state (load_idm ro)) with (hdr_state ro). change (idiag_state (load_idm rn)) with (hdr_state rn).
  destruct (negb (hdr_state ro =? hdr_state rn)%N); [reflexivity|].
  change INET_DIAG_INFO with 2.
  destruct ((length (ar_attrs old) <=? 2) || (length (ar_attrs new) <=? 2)) eqn:E.
  - destruct (nth 2 (ar_attrs old) None) as [a|] eqn:Ea; [|reflexivity].
    destruct (nth 2 (ar_attrs new) None) as [b|] eqn:Eb; [|reflexivity].
    apply orb_true_iff in E. destruct E as [E|E]; apply Nat.leb_le in E.
    + rewrite nth_overflow in Ea by exact E. discriminate.
    + rewrite nth_overflow in Eb by exact E. discriminate.
  - reflexivity.
Qed.

Lemma compare_short new old : length (header old) < 72 \/ length (header new) < 72 ->
  compare new (Some old) = Fail ErrParseFailed.
Proof.
  intros H. unfold compare. unfold header in H.
  destruct (parse_idm_cases (ar_raw old)) as [(b & E & Hl & ->)|[Hl ->]]; cbn [bind]; [|reflexivity].
  destruct (parse_idm_cases (ar_raw new)) as [(b' & E' & Hl' & ->)|[Hl' ->]]; cbn [bind]; [|reflexivity].
  rewrite E, E' in H. lia.
Qed.

Lemma bytes_eqb_neq a b : bytes_eqb a b = false <-> a <> b.
Proof.
  split.
  - intros H ->. rewrite bytes_eqb_refl in H. discriminate.
  - intros H. destruct (bytes_eqb a b) eqn:E; [|reflexivity]. apply bytes_eqb_eq in E. congruence.
Qed.

Lemma compare_sound new old : comparable old -> comparable new ->
  exists c, compare new (Some old) = Ret c /\ verdict old new c.
Proof.
  intros [Ho Io] [Hn In_]. rewrite compare_unfold by assumption.
  destruct (N.eqb_spec (hdr_state (header old)) (hdr_state (header new))) as [Hs|Hs]; cbn [negb].
  2:{ eexists. split; [reflexivity|]. apply v_state, Hs. }
  destruct (nth 2 (ar_attrs old) None) as [a|] eqn:Ea.
  2:{ eexists. split; [reflexivity|]. apply v_noinfo; [exact Hs|left]. unfold slot. rewrite Ea. reflexivity. }
  destruct (nth 2 (ar_attrs new) None) as [b|] eqn:Eb.
  2:{ eexists. split; [reflexivity|]. apply v_noinfo; [exact Hs|right]. unfold slot. rewrite Eb. reflexivity. }
  assert (Sa : slot 2 old = Some (vis a)) by (unfold slot; rewrite Ea; reflexivity).
  assert (Sb : slot 2 new = Some (vis b)) by (unfold slot; rewrite Eb; reflexivity).
  pose proof (Io _ Sa). pose proof (In_ _ Sb).
  rewrite !slice_bytes_ok by lia. cbn [bind]. change (168 - 60) with 108. change (44 - 0) with 44.
  destruct (bytes_eqb (at_ 60 108 (vis a)) (at_ 60 108 (vis b))) eqn:E1; cbn [negb].
  2:{ eexists. split; [reflexivity|]. eapply v_counter; eauto. intros [_ K]. apply bytes_eqb_neq in E1. auto. }
  destruct (bytes_eqb (at_ 0 44 (vis a)) (at_ 0 44 (vis b))) eqn:E2; cbn [negb].
  2:{ eexists. split; [reflexivity|]. eapply v_counter; eauto. intros [K _]. apply bytes_eqb_neq in E2. auto. }
  apply bytes_eqb_eq in E1, E2. assert (Si : same_info (vis a) (vis b)) by (split; assumption).
  destruct (length (ar_attrs old) <? length (ar_attrs new)) eqn:L1.
  { eexists. split; [reflexivity|]. eapply v_more; eauto. lia. }
  destruct (length (ar_attrs new) <? length (ar_attrs old)) eqn:L2.
  { eexists. split; [reflexivity|]. eapply v_fewer; eauto. lia. }
  assert (L : length (ar_attrs old) = length (ar_attrs new)) by lia.
  eexists. split; [reflexivity|].
  destruct (compare_slots_verdict (ar_attrs old) 0 (ar_attrs new) L) as [t c K1 K2 K3|K].
  - apply (v_slot old new (vis a) (vis b) t c); auto; [lia|]. intros u Hu Hu2. apply K2; lia.
  - apply v_same. repeat split; auto; [exists (vis a), (vis b); auto|]. intros t Ht. apply K. lia.
Qed.

Lemma slot_change_fun x y c c' : slot_change x y c -> slot_change x y c' -> c = c'.
Proof. intros H1 H2. inversion H1; inversion H2; subst; congruence. Qed.
Lemma slot_change_neq x y c : slot_change x y c -> x <> y.
Proof. intros [?|?|? ? H|? ? H H'] K; try discriminate; injection K as K; subst; congruence. Qed.

Lemma verdict_fun old new c c' : verdict old new c -> verdict old new c' -> c = c'.
Proof.
  intros H H'.
  destruct H as [Hs|Hs Hn|i j Hs Hi Hj Hd|i j Hs Hi Hj Hd Hl|i j Hs Hi Hj Hd Hl|i j t c Hs Hi Hj Hd Hl Ht Hu Hc|(Hs & (i & j & Hi & Hj & Hd) & Hl & Hu)];
  destruct H' as [Hs'|Hs' Hn'|i' j' Hs' Hi' Hj' Hd'|i' j' Hs' Hi' Hj' Hd' Hl'|i' j' Hs' Hi' Hj' Hd' Hl'|i' j' t' c' Hs' Hi' Hj' Hd' Hl' Ht' Hu' Hc'|(Hs' & (i' & j' & Hi' & Hj' & Hd') & Hl' & Hu')];
  try reflexivity; try congruence;
  try (exfalso; destruct Hn; congruence); try (exfalso; destruct Hn'; congruence);
  try (rewrite Hi in Hi'; injection Hi' as <-; rewrite Hj in Hj'; injection Hj' as <-; try tauto; try lia).
  - destruct (lt_eq_lt_dec t t') as [[T|<-]|T].
    + exfalso. apply (slot_change_neq _ _ _ Hc). auto.
    + eapply slot_change_fun; eauto.
    + exfalso. apply (slot_change_neq _ _ _ Hc'). auto.
  - exfalso. apply (slot_change_neq _ _ _ Hc). auto.
  - exfalso. apply (slot_change_neq _ _ _ Hc'). auto.
Qed.

Lemma compare_iff new old c : comparable old -> comparable new ->
  (compare new (Some old) = Ret c <-> verdict old new c).
Proof.
  intros Ho Hn. destruct (compare_sound new old Ho Hn) as (c0 & E & V). split.
  - intros K. rewrite E in K. injection K as <-. exact V.
  - intros V'. rewrite E. f_equal. eapply verdict_fun; eauto.
Qed.

Lemma verdict_no_change old new : verdict old new NoMajorChange <-> no_significant_change old new.
Proof.
  split; [|apply v_same]. intros H. inversion H; subst; auto.
  match goal with H : slot_change _ _ NoMajorChange |- _ => inversion H end.
Qed.
Lemma compare_no_change_iff new old : comparable old -> comparable new ->
  (compare new (Some old) = Ret NoMajorChange <-> no_significant_change old new).
Proof. intros. rewrite compare_iff by assumption. apply verdict_no_change. Qed.

(** ** What Compare does not look at *)
Lemma compare_header_irrelevant new old r1 r2 :
  72 <= length r1 -> 72 <= length r2 -> 72 <= length (header old) -> 72 <= length (header new) ->
  hdr_state r1 = hdr_state (header new) -> hdr_state r2 = hdr_state (header old) ->
  compare (mkar (ar_time new) (Some r1) (ar_attrs new) (ar_meta new))
          (Some (mkar (ar_time old) (Some r2) (ar_attrs old) (ar_meta old))) = compare new (Some old).
Proof.
  intros. rewrite !compare_unfold by assumption.
  cbn [ar_attrs]. unfold header in *. cbn [ar_raw] in *.
  replace (hdr_state r1) with (hdr_state match ar_raw new with Some b => b | None => [] end).
  replace (hdr_state r2) with (hdr_state match ar_raw old with Some b => b | None => [] end). reflexivity.
Qed.

Lemma carries_comparable r : carries_info r -> comparable r.
Proof. intros (H & i & Hi & L). split; [exact H|]. intros j Hj. congruence. Qed.

Lemma nsc_refl r : carries_info r -> no_significant_change r r.
Proof.
  intros (H & i & Hi & L). repeat split; auto. exists i, i. repeat split; auto.
Qed.
Lemma nsc_sym a b : no_significant_change a b -> no_significant_change b a.
Proof.
  intros (H1 & (i & j & Hi & Hj & [K1 K2]) & H3 & H4). repeat split; auto.
  - exists j, i. repeat split; auto.
  - intros t Ht. symmetry. auto.
Qed.
Lemma nsc_trans a b c : no_significant_change a b -> no_significant_change b c -> no_significant_change a c.
Proof.
  intros (H1 & (i & j & Hi & Hj & [K1 K2]) & H3 & H4) (H1' & (i' & j' & Hi' & Hj' & [K1' K2']) & H3' & H4').
  rewrite Hj in Hi'. injection Hi' as <-.
  repeat split; try congruence.
  - exists i, j'. repeat split; auto; congruence.
  - intros t Ht. rewrite H4 by exact Ht. auto.
Qed.
(** The verdict only depends on the significant content of both records. *)
Lemma verdict_congr a a' b b' c : no_significant_change a a' -> no_significant_change b b' ->
  verdict a b c -> verdict a' b' c.
Proof.
  intros (A1 & (i & i' & Ai & Ai' & [A2 A2']) & A3 & A4) (B1 & (j & j' & Bj & Bj' & [B2 B2']) & B3 & B4).
  intros [Hs|Hs Hn|x y Hs Hi Hj Hd|x y Hs Hi Hj Hd Hl|x y Hs Hi Hj Hd Hl|x y t c' Hs Hi Hj Hd Hl Ht Hu Hc|H].
  - apply v_state. congruence.
  - exfalso. destruct Hn; congruence.
  - rewrite Ai in Hi. rewrite Bj in Hj. injection Hi as <-. injection Hj as <-.
    eapply v_counter; eauto; [congruence|]. intros [K1 K2]. apply Hd. split; congruence.
  - rewrite Ai in Hi. rewrite Bj in Hj. injection Hi as <-. injection Hj as <-. destruct Hd as [K1 K2].
    eapply v_more; eauto; [congruence|split; congruence|lia].
  - rewrite Ai in Hi. rewrite Bj in Hj. injection Hi as <-. injection Hj as <-. destruct Hd as [K1 K2].
    eapply v_fewer; eauto; [congruence|split; congruence|lia].
  - rewrite Ai in Hi. rewrite Bj in Hj. injection Hi as <-. injection Hj as <-. destruct Hd as [K1 K2].
    eapply (v_slot a' b' i' j' t); eauto; try congruence; [split; congruence| |].
    + intros u U1 U2. rewrite <- A4, <- B4 by exact U2. auto.
    + rewrite <- A4, <- B4 by exact Ht. exact Hc.
  - destruct H as (H1 & (x & y & Hi & Hj & [K1 K2]) & H3 & H4).
    rewrite Ai in Hi. rewrite Bj in Hj. injection Hi as <-. injection Hj as <-.
    apply v_same. repeat split; try congruence.
    + exists i', j'. repeat split; auto; congruence.
    + intros t Ht. rewrite <- A4, <- B4 by exact Ht. auto.
Qed.
Lemma compare_congr a a' b b' : comparable a -> comparable a' -> comparable b -> comparable b' ->
  no_significant_change a a' -> no_significant_change b b' -> compare b (Some a) = compare b' (Some a').
Proof.
  intros Ca Ca' Cb Cb' A B. destruct (compare_sound b a Ca Cb) as (c & E & V). rewrite E. symmetry.
  apply compare_iff; auto. eapply verdict_congr; eauto.
Qed.

Lemma slot_change_swap x y c : slot_change x y c -> slot_change y x (swap_change c).
Proof. intros [?|?|? ? H|? ? H H']; constructor; auto. Qed.
Lemma verdict_swap a b c : verdict a b c -> verdict b a (swap_change c).
Proof.
  intros [Hs|Hs Hn|i j Hs Hi Hj Hd|i j Hs Hi Hj Hd Hl|i j Hs Hi Hj Hd Hl|i j t c' Hs Hi Hj Hd Hl Ht Hu Hc|H].
  - apply v_state. auto.
  - apply v_noinfo; auto. tauto.
  - eapply v_counter; eauto. intros [K1 K2]. apply Hd. split; auto.
  - destruct Hd as [K1 K2]. eapply v_fewer; eauto. split; auto.
  - destruct Hd as [K1 K2]. eapply v_more; eauto. split; auto.
  - destruct Hd as [K1 K2]. eapply (v_slot b a j i t); eauto.
    + split; auto. + intros u Hu1 Hu2. symmetry. auto. + apply slot_change_swap, Hc.
  - apply v_same, nsc_sym, H.
Qed.

Lemma compare_refl r : carries_info r -> compare r (Some r) = Ret NoMajorChange.
Proof. intros H. apply compare_no_change_iff; try apply carries_comparable; auto. apply nsc_refl, H. Qed.
Lemma compare_swap a b c : comparable a -> comparable b ->
  (compare a (Some b) = Ret c <-> compare b (Some a) = Ret (swap_change c)).
Proof.
  intros Ha Hb. rewrite !compare_iff by assumption. split; intros H; apply verdict_swap in H; auto.
  destruct c; exact H.
Qed.
Lemma compare_trans a b c : comparable a -> comparable b -> comparable c ->
  compare b (Some a) = Ret NoMajorChange -> compare c (Some b) = Ret NoMajorChange -> compare c (Some a) = Ret NoMajorChange.
Proof.
  intros Ha Hb Hc. rewrite !compare_no_change_iff by assumption. apply nsc_trans.
Qed.
(** replacing the reference record by one with no significant change from it
    does not alter whether a change is reported *)
Lemma compare_reference a b c : comparable a -> comparable b -> comparable c ->
  compare b (Some a) = Ret NoMajorChange ->
  (compare c (Some b) = Ret NoMajorChange <-> compare c (Some a) = Ret NoMajorChange).
Proof.
  intros Ha Hb Hc. rewrite !compare_no_change_iff by assumption. intros H. split; intros K.
  - eapply nsc_trans; eauto. - eapply nsc_trans; [apply nsc_sym; exact H|exact K].
Qed.

(** ** Panics *)
Lemma compare_panic_iff new prev :
  compare new prev = Panic <->
  exists old a b, prev = Some old /\ 72 <= length (header old) /\ 72 <= length (header new) /\
    hdr_state (header old) = hdr_state (header new) /\
    nth 2 (ar_attrs old) None = Some a /\ nth 2 (ar_attrs new) None = Some b /\
    (cap_of a < 168 \/ cap_of b < 168).
Proof.
  destruct prev as [old|].
  2:{ split; [discriminate|]. intros (o & a & b & K & _). discriminate. }
  destruct (le_lt_dec 72 (length (header old))) as [Ho|Ho].
  2:{ rewrite compare_short by auto. split; [discriminate|]. intros (o & a & b & K & K1 & _). injection K as <-. lia. }
  destruct (le_lt_dec 72 (length (header new))) as [Hn|Hn].
  2:{ rewrite compare_short by auto. split; [discriminate|]. intros (o & a & b & K & K1 & K2 & _). lia. }
  rewrite compare_unfold by assumption.
  destruct (N.eqb_spec (hdr_state (header old)) (hdr_state (header new))) as [Hs|Hs]; cbn [negb].
  2:{ split; [discriminate|]. intros (o & a & b & K & _ & _ & K1 & _). injection K as <-. congruence. }
  destruct (nth 2 (ar_attrs old) None) as [a|] eqn:Ea.
  2:{ split; [discriminate|]. intros (o & a & b & K & _ & _ & _ & K1 & _). injection K as <-. congruence. }
  destruct (nth 2 (ar_attrs new) None) as [b|] eqn:Eb.
  2:{ split; [discriminate|]. intros (o & a' & b & K & _ & _ & _ & _ & K1 & _). injection K as <-. congruence. }
  destruct (le_lt_dec 168 (cap_of a)) as [Ca|Ca].
  2:{ rewrite (slice_bytes_panic a) by lia. split; [|reflexivity]. intros _. exists old, a, b. auto 10. }
  destruct (le_lt_dec 168 (cap_of b)) as [Cb|Cb].
  2:{ destruct (slice_bytes_cap a 60 168 ltac:(lia) Ca) as [a1 ->]. rewrite (slice_bytes_panic b) by lia.
      split; [|reflexivity]. intros _. exists old, a, b. auto 10. }
  destruct (slice_bytes_cap a 60 168 ltac:(lia) Ca) as [a1 ->].
  destruct (slice_bytes_cap b 60 168 ltac:(lia) Cb) as [b1 ->].
  destruct (slice_bytes_cap a 0 44 ltac:(lia) ltac:(lia)) as [a2 ->].
  destruct (slice_bytes_cap b 0 44 ltac:(lia) ltac:(lia)) as [b2 ->]. cbn [bind].
  split.
  - repeat match goal with |- context [if ?c then _ else _] => destruct c end; discriminate.
  - intros (o & a' & b' & K & _ & _ & _ & K1 & K2 & K3). injection K as <-.
    rewrite Ea in K1. injection K1 as <-. injection K2 as <-. lia.
Qed.
Lemma compare_fail_iff new prev e :
  compare new prev = Fail e <-> e = ErrParseFailed /\ exists old, prev = Some old /\ (length (header old) < 72 \/ length (header new) < 72).
Proof.
  destruct prev as [old|].
  2:{ split; [discriminate|]. intros (_ & o & K & _). discriminate. }
  destruct (le_lt_dec 72 (length (header old))) as [Ho|Ho]; [destruct (le_lt_dec 72 (length (header new))) as [Hn|Hn]|].
  - split.
    + rewrite compare_unfold by assumption.
      destruct (negb (hdr_state (header old) =? hdr_state (header new))%N); [discriminate|].
      destruct (nth 2 (ar_attrs old) None) as [a|]; [|discriminate].
      destruct (nth 2 (ar_attrs new) None) as [b|]; [|discriminate].
      assert (forall s lo hi, exists x, slice_bytes s lo hi = x /\ (x = Panic \/ exists r, x = Ret r)) as K.
      { intros. unfold slice_bytes. destruct ((hi <? lo) || (length (vis s ++ spare s) <? hi)); eauto. }
      destruct (K a 60 168) as (x1 & -> & [->|[r1 ->]]); [discriminate|].
      destruct (K b 60 168) as (x2 & -> & [->|[r2 ->]]); [discriminate|].
      destruct (K a 0 44) as (x3 & -> & [->|[r3 ->]]); [cbn [bind]; destruct (negb _); discriminate|].
      destruct (K b 0 44) as (x4 & -> & [->|[r4 ->]]); cbn [bind];
      repeat match goal with |- context [if ?c then _ else _] => destruct c end; discriminate.
    + intros (_ & o & K & K1). injection K as <-. lia.
  - rewrite compare_short by auto. split.
    + intros K. injection K as <-. split; eauto.
    + intros (-> & _). reflexivity.
  - rewrite compare_short by auto. split.
    + intros K. injection K as <-. split; eauto.
    + intros (-> & _). reflexivity.
Qed.

(** ** GetStats *)
Lemma get_stats_some r i : slot 2 r = Some i -> 208 <= length i ->
  get_stats r = (le (at_ 200 8 i), le (at_ 128 8 i)).
Proof.
  intros Hi Hl. unfold get_stats. change INET_DIAG_INFO with 2. destruct offsets as (_ & _ & _ & -> & ->).
  pose proof (slot2_some r i Hi). replace (length (ar_attrs r) <=? 2) with false by lia.
  unfold slot in Hi. destruct (nth 2 (ar_attrs r) None) as [s|]; [|discriminate]. injection Hi as <-.
  cbn [len_opt vis_opt]. replace ((length (vis s) <? 200 + 8) || (length (vis s) <? 128 + 8)) with false by lia. reflexivity.
Qed.
Lemma get_stats_none r : (forall i, slot 2 r = Some i -> length i < 208) -> get_stats r = (0, 0)%N.
Proof.
  intros H. unfold get_stats. change INET_DIAG_INFO with 2. destruct offsets as (_ & _ & _ & -> & ->).
  destruct (length (ar_attrs r) <=? 2); [reflexivity|].
  unfold slot in H. destruct (nth 2 (ar_attrs r) None) as [s|]; [|reflexivity]. specialize (H _ eq_refl).
  cbn [len_opt vis_opt]. replace ((length (vis s) <? 200 + 8) || (length (vis s) <? 128 + 8)) with true by lia. reflexivity.
Qed.
Lemma has_diag_info_iff r : has_diag_info r = true <-> 2 < length (ar_attrs r).
Proof. unfold has_diag_info. change INET_DIAG_INFO with 2. lia. Qed.

(** ** GetSockID *)
Lemma hdr_cookie_lt raw : (hdr_cookie raw < two64)%N.
Proof.
  unfold hdr_cookie. pose proof (le_lt (at_ 44 8 raw)) as H.
  assert (length (at_ 44 8 raw) <= 8) by (unfold at_; rewrite firstn_length; lia).
  assert (256 ^ N.of_nat (length (at_ 44 8 raw)) <= 256 ^ 8)%N by (apply N.pow_le_mono_r; lia).
  unfold two64. change (256 ^ 8)%N with 18446744073709551616%N in *. lia.
Qed.
Lemma sockid_cookie raw : cookie_uint64 (get_sockid (idiag_id (load_idm raw))) = hdr_cookie raw.
Proof.
  unfold cookie_uint64, get_sockid. cbn [sid_cookie].
  change (cookie (idiag_id (load_idm raw))) with (hdr_cookie raw). apply to_of_int64, hdr_cookie_lt.
Qed.
Lemma sockid_fields (raw : bytes) : 72 <= length raw ->
  exists m, parse_idm (Some raw) = Ret m /\
  let s := get_sockid (idiag_id m) in
  sid_sport s = hdr_sport raw /\ sid_dport s = hdr_dport raw /\ sid_if s = hdr_if raw /\
  cookie_uint64 s = hdr_cookie raw /\ cookie (idiag_id m) = hdr_cookie raw.
Proof. intros H. eexists. split; [apply parse_idm_ok, H|]. cbn zeta. repeat split. apply sockid_cookie. Qed.
Lemma sockid_inj (raw raw' : bytes) m m' : parse_idm (Some raw) = Ret m -> parse_idm (Some raw') = Ret m' ->
  hdr_cookie raw <> hdr_cookie raw' -> get_sockid (idiag_id m) <> get_sockid (idiag_id m').
Proof.
  intros H H' Hc E. apply parse_idm_ret in H, H'. destruct H as (b & Eb & _ & ->), H' as (b' & Eb' & _ & ->).
  injection Eb as <-. injection Eb' as <-. apply Hc. rewrite <- !sockid_cookie. congruence.
Qed.

(** ** Anonymize *)
Lemma id_off_src : id_off "IDiagSrc" = 8. Proof. reflexivity. Qed.
Lemma id_off_dst : id_off "IDiagDst" = 24. Proof. reflexivity. Qed.

Lemma store_skipn o v l k : o + length v <= length l -> o + length v <= k -> skipn k (store o v l) = skipn k l.
Proof.
  intros. unfold store. rewrite skipn_app, firstn_length, (skipn_all2 (firstn o l)) by (rewrite firstn_length; lia).
  rewrite skipn_app, (skipn_all2 v) by lia. cbn [app]. rewrite skipn_skipn_add. f_equal. lia.
Qed.
Lemma sub_store_after o v l p n : o + length v <= length l -> o + length v <= p -> sub p n (store o v l) = sub p n l.
Proof. intros. unfold sub. rewrite store_skipn by assumption. reflexivity. Qed.

Lemma anonymize_v6 anon raw : (forall x, length (anon x) = length x) -> 72 <= length raw -> hdr_family raw = 10%N ->
  anonymize anon raw = Ret (firstn 8 raw ++ anon (at_ 8 16 raw) ++ anon (at_ 24 16 raw) ++ skipn 40 raw).
Proof.
  intros Ha Hl Hf. unfold anonymize. rewrite parse_idm_ok by exact Hl. rewrite id_off_src, id_off_dst.
  change (idiag_family (load_idm raw)) with (hdr_family raw). rewrite Hf. change (10 =? AF_INET6)%N with true. cbn iota.
  assert (L1 : length (anon (sub 8 16 raw)) = 16) by (rewrite Ha; apply sub_length; lia).
  rewrite sub_store_after by lia.
  assert (L2 : length (anon (sub 24 16 raw)) = 16) by (rewrite Ha; apply sub_length; lia).
  f_equal. unfold store at 1. rewrite L2. rewrite store_skipn by lia. change (24 + 16) with 40.
  rewrite !app_assoc. f_equal. f_equal. unfold store. rewrite L1.
  rewrite firstn_app, firstn_firstn, firstn_length. replace (24 - Nat.min 8 (length raw)) with 16 by lia.
  replace (Nat.min 24 8) with 8 by lia. f_equal.
  rewrite firstn_app, L1, Nat.sub_diag, firstn_O, app_nil_r. change (at_ 8 16 raw) with (sub 8 16 raw). apply firstn_all2. lia.
Qed.
Lemma anonymize_v4 anon raw : (forall x, length (anon x) = length x) -> 72 <= length raw -> hdr_family raw = 2%N ->
  anonymize anon raw = Ret (firstn 8 raw ++ anon (at_ 8 4 raw) ++ at_ 12 12 raw ++ anon (at_ 24 4 raw) ++ skipn 28 raw).
Proof.
  intros Ha Hl Hf. unfold anonymize. rewrite parse_idm_ok by exact Hl. rewrite id_off_src, id_off_dst.
  change (idiag_family (load_idm raw)) with (hdr_family raw). rewrite Hf. change (2 =? AF_INET6)%N with false. 
  change (2 =? AF_INET)%N with true. cbn iota.
  assert (L1 : length (anon (sub 8 4 raw)) = 4) by (rewrite Ha; apply sub_length; lia).
  rewrite sub_store_after by lia.
  assert (L2 : length (anon (sub 24 4 raw)) = 4) by (rewrite Ha; apply sub_length; lia).
  f_equal. unfold store at 1. rewrite L2. rewrite store_skipn by lia. change (24 + 4) with 28.
  rewrite !app_assoc. f_equal. f_equal. unfold store. rewrite L1.
  rewrite firstn_app, firstn_firstn, firstn_length. replace (24 - Nat.min 8 (length raw)) with 16 by lia.
  replace (Nat.min 24 8) with 8 by lia. rewrite <- app_assoc. f_equal.
  rewrite firstn_app, L1, (firstn_all2 (anon (sub 8 4 raw))) by lia. reflexivity.
Qed.
Lemma anonymize_other anon raw : 72 <= length raw -> hdr_family raw <> 10%N -> hdr_family raw <> 2%N ->
  anonymize anon raw = Fail ErrUnknownAF.
Proof.
  intros Hl H1 H2. unfold anonymize. rewrite parse_idm_ok by exact Hl.
  change (idiag_family (load_idm raw)) with (hdr_family raw). unfold AF_INET6, AF_INET.
  apply N.eqb_neq in H1, H2. rewrite H1, H2. reflexivity.
Qed.
Lemma anonymize_short anon raw : length raw < 72 -> anonymize anon raw = Fail ErrParseFailed.
Proof. intros H. unfold anonymize. rewrite parse_idm_short by exact H. reflexivity. Qed.
