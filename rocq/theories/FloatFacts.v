(** Exactness of binary64 arithmetic on numbers with at most 53 significant bits,
    over Coq's Floats.SpecFloat. *)
From Coq Require Import NArith ZArith Lia Bool List Floats.SpecFloat.
From Verif Require Import Prom SpecProm.
Local Open Scope Z_scope.

(** ** Digits and shifts *)
Lemma digits_bounds p : 2 ^ (Zpos (digits2_pos p) - 1) <= Zpos p < 2 ^ Zpos (digits2_pos p).
Proof.
  induction p as [p IH|p IH|]; cbn [digits2_pos]; [| |split; reflexivity || lia].
  - rewrite Pos2Z.inj_succ. replace (Z.succ (Zpos (digits2_pos p)) - 1) with (Z.succ (Zpos (digits2_pos p) - 1)) by lia.
    rewrite !Z.pow_succ_r by lia. lia.
  - rewrite Pos2Z.inj_succ. replace (Z.succ (Zpos (digits2_pos p)) - 1) with (Z.succ (Zpos (digits2_pos p) - 1)) by lia.
    rewrite !Z.pow_succ_r by lia. lia.
Qed.
Lemma digits_unique p d : 1 <= d -> 2 ^ (d - 1) <= Zpos p < 2 ^ d -> Zpos (digits2_pos p) = d.
Proof.
  intros Hd [A B]. pose proof (digits_bounds p) as [C D].
  assert (Zpos (digits2_pos p) - 1 < d) by (apply (Z.pow_lt_mono_r_iff 2); lia).
  assert (d - 1 < Zpos (digits2_pos p)) by (apply (Z.pow_lt_mono_r_iff 2); lia). lia.
Qed.

Lemma shift_pos_value d p : Zpos (shift_pos d p) = Zpos p * 2 ^ Zpos d.
Proof.
  rewrite shift_pos_correct. rewrite Z.mul_comm. reflexivity.
Qed.

Lemma iter_pos_add {A} (f : A -> A) n x : iter_pos f n x = Pos.iter f x n.
Proof.
  revert x; induction n as [n IH|n IH|]; intros x; cbn [iter_pos Pos.iter]; rewrite ?IH; [|reflexivity|reflexivity].
  rewrite <- !Pos.iter_swap. reflexivity.
Qed.
Lemma shr_exact n q : 0 < q -> iter_pos shr_1 n (Build_shr_record (q * 2 ^ Zpos n) false false) = Build_shr_record q false false.
Proof.
  intros Hq. rewrite iter_pos_add. revert q Hq. induction n as [|n IH] using Pos.peano_ind; intros q Hq.
  - cbn [Pos.iter]. destruct q as [|q|q]; try lia. rewrite Z.mul_comm. reflexivity.
  - rewrite Pos.iter_succ_r. rewrite Pos2Z.inj_succ, Z.pow_succ_r by lia.
    replace (q * (2 * 2 ^ Zpos n)) with (2 * (q * 2 ^ Zpos n)) by ring.
    assert (exists p, q * 2 ^ Zpos n = Zpos p) as [p Hp].
    { assert (0 < q * 2 ^ Zpos n) by (apply Z.mul_pos_pos; [lia|apply Z.pow_pos_nonneg; lia]).
      destruct (q * 2 ^ Zpos n); try lia. eexists. reflexivity. }
    rewrite Hp. cbn [Z.mul Pos.mul]. change (shr_1 _) with (Build_shr_record (Zpos p) false false). rewrite <- Hp. apply IH, Hq.
Qed.

(** ** Canonical floats *)
Lemma canon_fexp m e d : canon m e -> d = 53 + e -> fexp 53 1024 d = e.
Proof. intros [_ H] ->. unfold fexp, emin. lia. Qed.
Lemma canon_digits m e : canon m e -> Zpos (digits2_pos m) = 53.
Proof. intros [H _]. apply digits_unique; [lia|exact H]. Qed.

Lemma round_aux_exact M E m e : canon m e -> E <= e -> Zpos M = Zpos m * 2 ^ (e - E) ->
  binary_round_aux 53 1024 false (Zpos M) E loc_Exact = S754_finite false m e.
Proof.
  intros C L V.
  assert (D : Zpos (digits2_pos M) = 53 + (e - E)).
  { apply digits_unique; [lia|]. rewrite V. destruct C as [[C1 C2] _].
    replace (53 + (e - E) - 1) with (52 + (e - E)) by lia. rewrite !Z.pow_add_r by lia.
    pose proof (Z.pow_pos_nonneg 2 (e - E)). nia. }
  assert (S1 : shr_fexp 53 1024 (Zpos M) E loc_Exact = (Build_shr_record (Zpos m) false false, e)).
  { unfold shr_fexp. cbn [Zdigits2 shr_record_of_loc]. rewrite D. rewrite (canon_fexp m e) by (assumption || lia).
    destruct (e - E) as [|k|k] eqn:K; [| |lia]; cbn [shr].
    - f_equal; [|lia]. rewrite V. rewrite Z.mul_1_r. reflexivity.
    - rewrite V. rewrite shr_exact by lia. f_equal. lia. }
  unfold binary_round_aux. rewrite S1. cbn [shr_m loc_of_shr_record round_nearest_even].
  unfold shr_fexp. cbn [Zdigits2 shr_record_of_loc]. rewrite (canon_digits m e C), (canon_fexp m e) by (assumption || lia).
  rewrite Z.sub_diag. cbn [shr shr_m]. destruct C as [_ C].
  replace (Zle_bool e (1024 - 53)) with true by (symmetry; apply Zle_imp_le_bool; lia). reflexivity.
Qed.

Lemma round_exact M E m e : canon m e ->
  Zpos M * 2 ^ (E - Z.min E e) = Zpos m * 2 ^ (e - Z.min E e) -> binary_round 53 1024 false M E = S754_finite false m e.
Proof.
  intros C V. destruct (Z.le_gt_cases E e) as [L|L].
  - rewrite Z.min_l, Z.sub_diag, Z.mul_1_r in V by exact L.
    assert (D : Zpos (digits2_pos M) = 53 + (e - E)).
    { apply digits_unique; [lia|]. rewrite V. destruct C as [[C1 C2] _].
      replace (53 + (e - E) - 1) with (52 + (e - E)) by lia. rewrite !Z.pow_add_r by lia.
      pose proof (Z.pow_pos_nonneg 2 (e - E)). nia. }
    unfold binary_round. rewrite D, (canon_fexp m e) by (assumption || lia). unfold shl_align.
    destruct (e - E) as [|k|k] eqn:K; [| |lia]; apply (round_aux_exact _ _ m e C L); rewrite K; exact V.
  - rewrite Z.min_r, Z.sub_diag, Z.mul_1_r in V by lia.
    assert (D : Zpos (digits2_pos M) = 53 + e - E).
    { assert (P : 0 < 2 ^ (E - e)) by (apply Z.pow_pos_nonneg; lia).
      destruct C as [[C1 C2] _].
      pose proof (digits_bounds M) as [B1 B2]. set (d := Zpos (digits2_pos M)) in *.
      assert (d - 1 + (E - e) < 53).
      { apply (Z.pow_lt_mono_r_iff 2); [lia|lia|]. rewrite Z.pow_add_r by lia. nia. }
      assert (52 < d + (E - e)).
      { apply (Z.pow_lt_mono_r_iff 2); [lia|lia|]. rewrite Z.pow_add_r by lia. nia. }
      lia. }
    unfold binary_round. rewrite D, (canon_fexp m e) by (assumption || lia). unfold shl_align.
    destruct (e - E) as [|k|k] eqn:K; [lia|lia|].
    assert (shift_pos k M = m) as ->.
    { apply Pos2Z.inj. rewrite shift_pos_value. replace (Zpos k) with (E - e) by lia. exact V. }
    apply (round_aux_exact _ _ m e C); [lia|]. rewrite Z.sub_diag, Z.mul_1_r. reflexivity.
Qed.

(** At most 53 significant bits. *)
Definition fits (n : Z) : Prop := exists q j, n = q * 2 ^ j /\ 0 <= q < 2 ^ 53 /\ 0 <= j <= 900.

Lemma fits_small n : 0 <= n < 2 ^ 53 -> fits n.
Proof. intros H. exists n, 0. rewrite Z.mul_1_r. repeat split; lia. Qed.
Lemma fits_times n k : 0 <= k <= 800 -> (exists q j, n = q * 2 ^ j /\ 0 <= q < 2 ^ 53 /\ 0 <= j <= 100) -> fits (n * 2 ^ k).
Proof. intros Hk (q & j & -> & Hq & Hj). exists q, (j + k). rewrite Z.pow_add_r by lia. repeat split; lia. Qed.

Lemma fits_canon n : fits n -> 0 < n -> exists m e, canon m e /\ Zpos m * 2 ^ (e + 1074) = n * 2 ^ 1074.
Proof.
  intros (q & j & -> & Hq & Hj) Hn.
  assert (0 < 2 ^ j) as Hp by (apply Z.pow_pos_nonneg; lia).
  destruct q as [|q|q]; [lia| |lia].
  pose proof (digits_bounds q) as [B1 B2]. set (d := Zpos (digits2_pos q)) in *.
  assert (1 <= d) by (unfold d; lia).
  assert (d <= 53).
  { assert (d - 1 < 53) by (apply (Z.pow_lt_mono_r_iff 2); lia). lia. }
  assert (exists m, Zpos m = Zpos q * 2 ^ (53 - d)) as [m Hm].
  { assert (0 < Zpos q * 2 ^ (53 - d)) by (apply Z.mul_pos_pos; [lia|apply Z.pow_pos_nonneg; lia]).
    destruct (Zpos q * 2 ^ (53 - d)) as [|m|m]; try lia. exists m. reflexivity. }
  exists m, (j + d - 53). split.
  - split; [|lia]. rewrite Hm. assert (0 < 2 ^ (53 - d)) by (apply Z.pow_pos_nonneg; lia).
    assert (2 ^ 52 = 2 ^ (d - 1) * 2 ^ (53 - d)) as -> by (rewrite <- Z.pow_add_r by lia; f_equal; lia).
    assert (2 ^ 53 = 2 ^ d * 2 ^ (53 - d)) as -> by (rewrite <- Z.pow_add_r by lia; f_equal; lia). nia.
  - rewrite Hm. rewrite <- !Z.mul_assoc. rewrite <- (Z.pow_add_r 2 (53 - d)), <- (Z.pow_add_r 2 j) by lia.
    f_equal. f_equal. lia.
Qed.

(** Two ways to write the same value. *)
Lemma same_value M E m e n : -1074 <= E -> -1074 <= e ->
  Zpos M * 2 ^ (E + 1074) = n * 2 ^ 1074 -> Zpos m * 2 ^ (e + 1074) = n * 2 ^ 1074 ->
  Zpos M * 2 ^ (E - Z.min E e) = Zpos m * 2 ^ (e - Z.min E e).
Proof.
  intros H1 H2 A B. set (k := Z.min E e).
  assert (0 < 2 ^ (k + 1074)) as P by (apply Z.pow_pos_nonneg; lia).
  apply (Z.mul_cancel_r _ _ (2 ^ (k + 1074))); [lia|]. rewrite <- !Z.mul_assoc, <- !Z.pow_add_r by lia.
  replace (E - k + (k + 1074)) with (E + 1074) by lia. replace (e - k + (k + 1074)) with (e + 1074) by lia. congruence.
Qed.

Lemma round_worth M E n : fits n -> 0 < n -> -1074 <= E -> Zpos M * 2 ^ (E + 1074) = n * 2 ^ 1074 ->
  worth (binary_round 53 1024 false M E) n 1.
Proof.
  intros F Hn HE V. destruct (fits_canon n F Hn) as (m & e & C & V').
  rewrite (round_exact M E m e C); [|apply (same_value _ _ _ _ n); [exact HE|destruct C; lia|exact V|exact V']].
  cbn [worth]. rewrite Z.mul_1_r. split; assumption.
Qed.

Lemma float_of_worth n : fits (Z.of_N n) -> worth (float_of n) (Z.of_N n) 1.
Proof.
  intros F. unfold float_of. destruct n as [|p]; [reflexivity|]. cbn [Z.of_N binary_normalize] in *.
  apply round_worth; [exact F|lia|lia|]. reflexivity.
Qed.

Lemma add_worth f g a b : worth f a 1 -> worth g b 1 -> 0 <= a -> 0 <= b -> fits (a + b) -> worth (fadd f g) (a + b) 1.
Proof.
  intros Hf Hg Ha Hb F. unfold fadd.
  destruct f as [s|s| |[|] mx ex]; cbn [worth] in Hf; try contradiction.
  - subst a. destruct g as [s'|s'| |[|] my ey]; cbn [worth] in Hg; try contradiction.
    + subst b. destruct s, s'; reflexivity.
    + exact Hg.
  - destruct g as [s'|s'| |[|] my ey]; cbn [worth] in Hg; try contradiction.
    + subst b. rewrite Z.add_0_r. exact Hf.
    + destruct Hf as [[Cm Ce] Vf], Hg as [[Cm' Ce'] Vg]. rewrite Z.mul_1_r in Vf, Vg.
      cbn [SFadd]. set (ez := Z.min ex ey).
      assert (Sh : forall m e, ez <= e -> Zpos (fst (shl_align m e ez)) = Zpos m * 2 ^ (e - ez)).
      { intros m e L. unfold shl_align. destruct (ez - e) as [|k|k] eqn:K; cbn [fst].
        - replace (e - ez) with 0 by lia. lia.
        - lia.
        - rewrite shift_pos_value. f_equal. f_equal. lia. }
      cbn [cond_Zopp]. rewrite <- Pos2Z.inj_add. cbn [binary_normalize].
      assert (P : 0 < 2 ^ (ez + 1074)) by (apply Z.pow_pos_nonneg; lia).
      assert (V : Zpos (fst (shl_align mx ex ez) + fst (shl_align my ey ez)) * 2 ^ (ez + 1074) = (a + b) * 2 ^ 1074).
      { rewrite Pos2Z.inj_add, !Sh by lia. rewrite Z.mul_add_distr_r, <- !Z.mul_assoc, <- !Z.pow_add_r by lia.
        replace (ex - ez + (ez + 1074)) with (ex + 1074) by lia. replace (ey - ez + (ez + 1074)) with (ey + 1074) by lia. lia. }
      apply round_worth; [exact F| |lia|exact V].
      assert (0 < (a + b) * 2 ^ 1074) by (rewrite <- V; apply Z.mul_pos_pos; lia). nia.
Qed.

Lemma mul_worth f g a b : worth f a 1 -> worth g b 1 -> 0 <= a -> 0 <= b -> fits (a * b) ->
  (forall m e, f = S754_finite false m e -> -500 <= e) -> (forall m e, g = S754_finite false m e -> -500 <= e) ->
  worth (fmul f g) (a * b) 1.
Proof.
  intros Hf Hg Ha Hb F Le Le'. unfold fmul.
  destruct f as [s|s| |[|] mx ex]; cbn [worth] in Hf; try contradiction.
  - subst a. destruct g as [s'|s'| |[|] my ey]; cbn [worth] in Hg; try contradiction; reflexivity.
  - destruct g as [s'|s'| |[|] my ey]; cbn [worth] in Hg; try contradiction.
    + subst b. rewrite Z.mul_0_r. reflexivity.
    + specialize (Le _ _ eq_refl). specialize (Le' _ _ eq_refl).
      destruct Hf as [[Cm Ce] Vf], Hg as [[Cm' Ce'] Vg]. rewrite Z.mul_1_r in Vf, Vg.
      cbn [SFmul xorb].
      assert (V : Zpos (mx * my) * 2 ^ (ex + ey + 1074) = (a * b) * 2 ^ 1074).
      { rewrite Pos2Z.inj_mul. apply (Z.mul_cancel_r _ _ (2 ^ 1074)); [apply Z.pow_nonzero; lia|].
        transitivity ((Zpos mx * 2 ^ (ex + 1074)) * (Zpos my * 2 ^ (ey + 1074))); [|rewrite Vf, Vg; ring].
        replace (Zpos mx * 2 ^ (ex + 1074) * (Zpos my * 2 ^ (ey + 1074))) with (Zpos mx * Zpos my * (2 ^ (ex + 1074) * 2 ^ (ey + 1074))) by ring.
        rewrite <- Z.mul_assoc. f_equal. rewrite <- !Z.pow_add_r by lia. f_equal. lia. }
      assert (Hn : 0 < a * b).
      { assert (0 < (a * b) * 2 ^ 1074) by (rewrite <- V; apply Z.mul_pos_pos; [lia|apply Z.pow_pos_nonneg; lia]). nia. }
      destruct (fits_canon _ F Hn) as (m & e & C & V').
      assert (W : Zpos (mx * my) * 2 ^ (ex + ey - Z.min (ex + ey) e) = Zpos m * 2 ^ (e - Z.min (ex + ey) e)).
      { apply (same_value _ _ _ _ (a * b)); [lia|destruct C; lia|exact V|exact V']. }
      assert (ex + ey <= e) as L.
      { destruct (Z.le_gt_cases (ex + ey) e) as [L|L]; [exact L|exfalso].
        rewrite Z.min_r, Z.sub_diag, Z.mul_1_r in W by lia. destruct C as [[_ C2] _].
        assert (0 < 2 ^ (ex + ey - e)) by (apply Z.pow_pos_nonneg; lia). rewrite Pos2Z.inj_mul in W. nia. }
      rewrite Z.min_l, Z.sub_diag, Z.mul_1_r in W by exact L.
      rewrite (round_aux_exact _ _ m e C L W). cbn [worth]. rewrite Z.mul_1_r. split; [exact C|exact V'].
Qed.

(** ** Comparison *)
Lemma scale_lt (x y P Q : Z) : x < 2 ^ 53 -> 2 ^ 52 <= y -> 0 < P -> 0 < Q -> x * P < y * (P * 2 * Q).
Proof.
  intros Hx Hy HP HQ. change (2 ^ 52) with 4503599627370496 in *. change (2 ^ 53) with 9007199254740992 in *.
  assert (x < y * 2) as H by lia. assert (y * 2 <= y * 2 * Q) by nia.
  replace (y * (P * 2 * Q)) with (y * 2 * Q * P) by ring. apply Z.mul_lt_mono_pos_r; lia.
Qed.

Lemma fle_worth f g a b c d : worth f a b -> worth g c d -> 0 < b -> 0 < d -> 0 <= a -> 0 <= c -> fle f g = (a * d <=? c * b).
Proof.
  intros Hf Hg Hb Hd Ha Hc. unfold fle, SFleb.
  assert (P0 : 0 < 2 ^ 1074) by (apply Z.pow_pos_nonneg; lia).
  assert (Pos : forall m e x y, 0 < y -> canon m e -> Zpos m * 2 ^ (e + 1074) * y = x * 2 ^ 1074 -> 0 < x).
  { intros m e x y Hy [_ C] V. assert (0 < 2 ^ (e + 1074)) by (apply Z.pow_pos_nonneg; lia).
    assert (0 < Zpos m * 2 ^ (e + 1074)) by (apply Z.mul_pos_pos; lia). nia. }
  destruct f as [s|s| |[|] m1 e1]; cbn [worth] in Hf; try contradiction;
  destruct g as [s'|s'| |[|] m2 e2]; cbn [worth] in Hg; try contradiction.
  - subst a c. reflexivity.
  - subst a. cbn [SFcompare]. symmetry. apply Z.leb_le. nia.
  - subst c. destruct Hf as [C V]. pose proof (Pos _ _ _ _ Hb C V). cbn [SFcompare]. symmetry. apply Z.leb_gt. nia.
  - destruct Hf as [C1 V1], Hg as [C2 V2]. cbn [SFcompare].
    assert (Q1 : 0 < 2 ^ (e1 + 1074)) by (apply Z.pow_pos_nonneg; destruct C1; lia).
    assert (Q2 : 0 < 2 ^ (e2 + 1074)) by (apply Z.pow_pos_nonneg; destruct C2; lia).
    set (v1 := Zpos m1 * 2 ^ (e1 + 1074)) in *. set (v2 := Zpos m2 * 2 ^ (e2 + 1074)) in *.
    assert (K : (v1 <=? v2) = (a * d <=? c * b)).
    { apply eq_true_iff_eq. rewrite !Z.leb_le.
      assert (a * d * 2 ^ 1074 = v1 * (b * d)) as E1 by (rewrite <- Z.mul_assoc, (Z.mul_comm d), Z.mul_assoc, <- V1; ring).
      assert (c * b * 2 ^ 1074 = v2 * (b * d)) as E2 by (rewrite <- Z.mul_assoc, (Z.mul_comm b), Z.mul_assoc, <- V2; ring).
      assert (0 < b * d) as Q by nia. revert E1 E2 Q P0. generalize (2 ^ 1074), (b * d), (a * d), (c * b). clear. intros; nia. }
    rewrite <- K. clear K V1 V2.
    destruct C1 as [[L1 U1] R1], C2 as [[L2 U2] R2].
    destruct (Z.compare_spec e1 e2) as [E|E|E].
    + subst e2. unfold v1, v2. rewrite (Pos.compare_cont_spec m1 m2 Eq). cbn [Pos.switch_Eq].
      destruct (Pos.compare_spec m1 m2) as [Em|Em|Em]; cbn; symmetry; [apply Z.leb_le|apply Z.leb_le|apply Z.leb_gt]; subst; nia.
    + symmetry. apply Z.leb_le, Z.lt_le_incl. unfold v1, v2. replace (e2 + 1074) with ((e1 + 1074) + 1 + (e2 - e1 - 1)) by lia.
      rewrite (Z.pow_add_r 2 (e1 + 1074 + 1)), (Z.pow_add_r 2 (e1 + 1074)) by lia. change (2 ^ 1) with 2.
      apply scale_lt; [exact U1|exact L2|exact Q1|apply Z.pow_pos_nonneg; lia].
    + symmetry. apply Z.leb_gt. unfold v1, v2. replace (e1 + 1074) with ((e2 + 1074) + 1 + (e1 - e2 - 1)) by lia.
      rewrite (Z.pow_add_r 2 (e2 + 1074 + 1)), (Z.pow_add_r 2 (e2 + 1074)) by lia. change (2 ^ 1) with 2.
      apply scale_lt; [exact U2|exact L1|exact Q2|apply Z.pow_pos_nonneg; lia].
Qed.
