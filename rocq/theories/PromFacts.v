(** Histograms show how many numbers are below each bound, and their sum. *)
From Coq Require Import NArith ZArith Lia Bool List Floats.SpecFloat.
From Verif Require Import GoBase Prom SpecProm FloatFacts.
Import ListNotations.
Local Open Scope Z_scope.

Lemma worth_unique f g a : worth f a 1 -> worth g a 1 -> 0 < a -> f = g.
Proof.
  intros Hf Hg Ha.
  destruct f as [s|s| |[|] m1 e1]; cbn [worth] in Hf; try contradiction; [lia|].
  destruct g as [s'|s'| |[|] m2 e2]; cbn [worth] in Hg; try contradiction; [lia|].
  destruct Hf as [C1 V1], Hg as [C2 V2]. rewrite Z.mul_1_r in V1, V2.
  rewrite <- (round_exact m1 e1 m1 e1 C1 eq_refl). apply round_exact; [exact C2|].
  apply (same_value _ _ _ _ a); [destruct C1; lia|destruct C2; lia|exact V1|exact V2].
Qed.
Lemma worth_exp f a m e : worth f a 1 -> 1 <= a -> f = S754_finite false m e -> -500 <= e.
Proof.
  intros H Ha ->. destruct H as [[[_ C] R] V]. rewrite Z.mul_1_r in V.
  destruct (Z.le_gt_cases (-500) e) as [L|L]; [exact L|exfalso].
  assert (2 ^ (e + 1074) <= 2 ^ 574) by (apply Z.pow_le_mono_r; lia).
  assert (0 < 2 ^ (e + 1074)) by (apply Z.pow_pos_nonneg; lia).
  assert (Zpos m * 2 ^ (e + 1074) < 2 ^ 53 * 2 ^ 574) by nia.
  assert (2 ^ 53 * 2 ^ 574 < 2 ^ 1074) by reflexivity.
  assert (1 * 2 ^ 1074 <= a * 2 ^ 1074) by (apply Z.mul_le_mono_nonneg_r; [apply Z.pow_nonneg|]; lia). lia.
Qed.
Lemma count_worth n : (n < 2 ^ 53)%N -> worth (float_of n) (Z.of_N n) 1.
Proof. intros H. apply float_of_worth, fits_small. lia. Qed.
Lemma rate_worth n : (n < 2 ^ 53)%N -> worth (rate_value n) (Z.of_N (8 * n)) 1.
Proof.
  intros H. unfold rate_value. rewrite N2Z.inj_mul. change (Z.of_N 8) with 8.
  destruct (N.eq_dec n 0) as [->|Hn]; [reflexivity|].
  assert (W8 : worth (float_of 8) 8 1) by (apply (count_worth 8); reflexivity).
  pose proof (count_worth n H) as Wn.
  apply mul_worth; [exact W8|exact Wn|lia|lia| | |].
  - exists (Z.of_N n), 3. change (2 ^ 3) with 8. lia.
  - intros m e. apply (worth_exp _ 8); [exact W8|lia].
  - intros m e. apply (worth_exp _ (Z.of_N n)); [exact Wn|lia].
Qed.

(** ** Counts *)
Lemma cumulate_more bs : forall cs k, cumulate (k + 1) bs cs = map (fun x => (fst x, (snd x + 1)%N)) (cumulate k bs cs).
Proof.
  induction bs as [|b bs IH]; intros [|c cs] k; cbn [cumulate map]; [reflexivity..|].
  cbn [fst snd]. f_equal; [f_equal; lia|]. replace (k + 1 + c)%N with (k + c + 1)%N by lia. apply IH.
Qed.
Definition tick (v : float) (x : float * N) : float * N := (fst x, if fle v (fst x) then (snd x + 1)%N else snd x).
Definition upward (v : float) (b b' : float) : Prop := fle v b = true -> fle v b' = true.
(** sort.Search finds the first index, if those where f holds are the last ones. *)
Lemma search_first (f : nat -> bool) fuel : forall i j, (j <= i + fuel)%nat -> (i <= j)%nat ->
  (forall k l, (i <= k < l)%nat -> (l < j)%nat -> f k = true -> f l = true) ->
  let r := search fuel i j f in (i <= r <= j)%nat /\ (forall k, (i <= k < r)%nat -> f k = false) /\ ((r < j)%nat -> f r = true).
Proof.
  induction fuel as [|fuel IH]; intros i j F L M; cbn [search]; cbv zeta; [split; [lia|]; split; intros; lia|].
  destruct (Nat.ltb_spec i j) as [K|K]; [|split; [lia|]; split; intros; lia].
  assert (H : (i <= Nat.div2 (i + j) < j)%nat) by (rewrite Nat.div2_div; pose proof (Nat.div_mod (i + j) 2 ltac:(lia)); pose proof (Nat.mod_upper_bound (i + j) 2 ltac:(lia)); lia). set (h := Nat.div2 (i + j)) in *. clearbody h.
  destruct (f h) eqn:E.
  - destruct (IH i h) as (R1 & R2 & R3); [lia|lia|intros k l A B; apply M; lia|]. split; [lia|]. split; [exact R2|].
    intros _. destruct (Nat.eq_dec (search fuel i h f) h) as [->|N]; [exact E|apply R3; lia].
  - destruct (IH (h + 1)%nat j) as (R1 & R2 & R3); [lia|lia|intros k l A B; apply M; lia|]. split; [lia|]. split; [|exact R3].
    intros k A. destruct (Nat.le_gt_cases k h) as [B|B]; [|apply R2; lia]. destruct (f k) eqn:D; [|reflexivity].
    destruct (Nat.eq_dec k h) as [->|N]; [congruence|]. rewrite (M k h ltac:(lia) ltac:(lia) D) in E. discriminate E.
Qed.
Fixpoint bump_first (bs : list float) (cs : list N) (v : float) : list N :=
  match bs, cs with
  | b :: bs', c :: cs' => if fle v b then (c + 1)%N :: cs' else c :: bump_first bs' cs' v
  | _, _ => cs
  end.
Lemma increment_first v bs : forall cs r, (r <= length bs)%nat -> length cs = length bs ->
  (forall k, (k < r)%nat -> fle v (nth k bs S754_nan) = false) -> ((r < length bs)%nat -> fle v (nth r bs S754_nan) = true) ->
  increment r cs = bump_first bs cs v.
Proof.
  induction bs as [|b bs IH]; intros [|c cs] r L Lc H1 H2; try discriminate Lc; [destruct r; reflexivity|].
  cbn [bump_first length] in *. destruct r as [|r].
  - specialize (H2 ltac:(lia)). cbn [nth] in H2. rewrite H2. reflexivity.
  - pose proof (H1 0%nat ltac:(lia)) as E. cbn [nth] in E. rewrite E. cbn [increment]. f_equal. apply IH; [lia|lia| |].
    + intros k K. apply (H1 (S k)). lia.
    + intros K. apply H2. lia.
Qed.
Lemma upward_nth v bs : ForallOrdPairs (upward v) bs -> forall k l, (k < l)%nat -> (l < length bs)%nat ->
  fle v (nth k bs S754_nan) = true -> fle v (nth l bs S754_nan) = true.
Proof.
  induction 1 as [|b bs Hb S IH]; intros k l K L E; [cbn in L; lia|]. destruct l as [|l]; [lia|]. cbn [length nth] in *. destruct k as [|k].
  - rewrite Forall_forall in Hb. apply (Hb (nth l bs S754_nan)); [apply nth_In; lia|exact E].
  - apply (IH k l); [lia|lia|exact E].
Qed.
Lemma bump_is_first v bs cs : ForallOrdPairs (upward v) bs -> length cs = length bs -> bump bs cs v = bump_first bs cs v.
Proof.
  intros S L. unfold bump.
  assert (M : forall k l, (0 <= k < l)%nat -> (l < length bs)%nat -> fle v (nth k bs S754_nan) = true -> fle v (nth l bs S754_nan) = true).
  { intros k l A B. exact (upward_nth v bs S k l (proj2 A) B). }
  pose proof (search_first (fun k => fle v (nth k bs S754_nan)) (length bs) 0 (length bs) ltac:(lia) ltac:(lia) M) as R. cbv zeta in R. destruct R as (R1 & R2 & R3).
  apply increment_first; [exact (proj2 R1)|exact L| |exact R3]. intros k K. exact (R2 k (conj (Nat.le_0_l k) K)).
Qed.
Lemma cumulate_first v bs : ForallOrdPairs (upward v) bs -> forall cs k,
  cumulate k bs (bump_first bs cs v) = map (tick v) (cumulate k bs cs).
Proof.
  intros S. induction S as [|b bs Hb S IH]; intros [|c cs] k; cbn [bump_first cumulate map]; [reflexivity..|].
  destruct (fle v b) eqn:E; cbn [cumulate]; unfold tick at 1; cbn [fst snd]; rewrite E.
  - f_equal; [f_equal; lia|]. replace (k + (c + 1))%N with (k + c + 1)%N by lia. rewrite cumulate_more.
    clear IH S. revert cs. generalize (k + c)%N as q. revert Hb. induction bs as [|b' bs IH]; intros Hb q [|c' cs]; cbn [cumulate map]; [reflexivity..|].
    inversion Hb as [|x y H1 H2]; subst. unfold tick at 1. cbn [fst snd]. rewrite (H1 E). f_equal. apply IH, H2.
  - f_equal. apply IH.
Qed.

Definition sound (p : Z * Z) : Prop := 0 <= fst p /\ 0 < snd p.
Definition below (p q : Z * Z) : Prop := fst p * snd q < fst q * snd p.
Lemma upward_all v x bs ps : worth v (Z.of_N x) 1 -> Forall2 (fun (b : float) p => worth b (fst p) (snd p)) bs ps ->
  Forall sound ps -> ForallOrdPairs below ps -> ForallOrdPairs (upward v) bs.
Proof.
  intros Hv H. induction H as [|b p bs ps Hb H IH]; intros HS HO; [constructor|].
  inversion HS as [|y z [S1 S2] HS']; subst. inversion HO as [|y z O1 O2]; subst.
  constructor; [|apply IH; assumption]. clear IH O2 HO HS.
  induction H as [|b' p' bs ps Hb' H IH]; constructor.
  - inversion HS' as [|y z [T1 T2] _]; subst. inversion O1 as [|y z B _]; subst. unfold below in B. intros L.
    rewrite (fle_worth v b (Z.of_N x) 1 (fst p) (snd p)) in L by (assumption || lia).
    rewrite (fle_worth v b' (Z.of_N x) 1 (fst p') (snd p')) by (assumption || lia).
    apply Z.leb_le in L. apply Z.leb_le. rewrite Z.mul_1_r in *. nia.
  - apply IH; [inversion HS'|inversion O1]; assumption.
Qed.

Lemma at_most_snoc num den l x : at_most num den (l ++ [x]) =
  if Z.of_N x * den <=? num then (at_most num den l + 1)%N else at_most num den l.
Proof. unfold at_most. rewrite filter_app, app_length. cbn [filter]. destruct (_ <=? _); cbn [length]; lia. Qed.

Definition values (fs : list float) (xs : list N) : Prop := Forall2 (fun f x => worth f (Z.of_N x) 1) fs xs.

Lemma shown_tick v x l bk ps : worth v (Z.of_N x) 1 -> Forall sound ps -> Forall2 (shown l) bk ps -> Forall2 (shown (l ++ [x])) (map (tick v) bk) ps.
Proof.
  intros Hv HS H. induction H as [|b p bk ps [W C] H IH]; cbn [map]; constructor.
  - inversion HS as [|y z [S1 S2] _]; subst. destruct b as [b c]. cbn [fst snd] in W, C. split; [exact W|]. unfold tick; cbn [fst snd].
    rewrite at_most_snoc, (fle_worth v b (Z.of_N x) 1 (fst p) (snd p)) by (assumption || lia).
    rewrite Z.mul_1_r, C. reflexivity.
  - apply IH. inversion HS; assumption.
Qed.

Lemma cumulate_zero (bs : list float) ps : Forall2 (fun (b : float) p => worth b (fst p) (snd p)) bs ps ->
  Forall2 (shown []) (cumulate 0 bs (map (fun _ : float => 0%N) bs)) ps.
Proof. intros H. induction H as [|b p bs ps Hb H IH]; cbn [map cumulate]; constructor; [split; [exact Hb|reflexivity]|exact IH]. Qed.

Lemma fold_snoc {A B} (f : A -> B -> A) l x a : fold_left f (l ++ [x]) a = f (fold_left f l a) x.
Proof. apply fold_left_app. Qed.

Lemma forall2_snoc_inv {A B} (R : A -> B -> Prop) l x r : Forall2 R (l ++ [x]) r -> exists r' y, r = r' ++ [y] /\ Forall2 R l r' /\ R x y.
Proof.
  intros H. apply Forall2_app_inv_l in H as (r1 & r2 & H1 & H2 & ->). inversion H2 as [|a b c d H3 H4]; subst.
  inversion H4; subst. eauto.
Qed.

Lemma increment_length i : forall cs, length (increment i cs) = length cs.
Proof. induction i as [|i IH]; intros [|c cs]; cbn [increment length]; [reflexivity..|]. rewrite IH. reflexivity. Qed.
Lemma observe_counts fs : forall h, length (h_counts (fold_left observe fs h)) = length (h_counts h).
Proof. induction fs as [|f fs IH]; intros h; [reflexivity|]. cbn [fold_left]. rewrite IH. cbn [observe h_counts]. apply increment_length. Qed.
Lemma histogram_counts (bs : list float) ps fs xs : Forall2 (fun (b : float) p => worth b (fst p) (snd p)) bs ps -> Forall sound ps -> ForallOrdPairs below ps -> values fs xs ->
  let h := fold_left observe fs (mkhist bs (map (fun _ : float => 0%N) bs) 0 (float_of 0)) in
  h_bounds h = bs /\ Forall2 (shown xs) (cumulate 0 bs (h_counts h)) ps /\ h_number h = N.of_nat (length xs).
Proof.
  intros HB HS HO. revert xs. induction fs as [|v fs IH] using rev_ind; intros xs HV.
  - inversion HV; subst. cbn [fold_left h_bounds h_counts h_number]. repeat split. apply cumulate_zero, HB.
  - apply forall2_snoc_inv in HV as (xs' & x & -> & HV & Hx). destruct (IH xs' HV) as (E1 & E2 & E3).
    cbv zeta. rewrite fold_snoc. set (h := fold_left observe fs _) in *.
    unfold observe; cbn [h_bounds h_counts h_number]. split; [exact E1|]. rewrite E1. split.
    + assert (U : ForallOrdPairs (upward v) bs) by (apply (upward_all v x bs ps); assumption).
      rewrite bump_is_first, cumulate_first; [apply shown_tick; assumption|exact U|exact U|].
      unfold h. rewrite observe_counts. cbn [h_counts]. apply map_length.
    + rewrite app_length, E3. cbn [length]. lia.
Qed.

(** ** Sums *)
Lemma total_snoc l x : total (l ++ [x]) = (total l + x)%N.
Proof. unfold total. rewrite fold_right_app. cbn [fold_right]. induction l as [|y l IH]; cbn [fold_right]; lia. Qed.
Lemma observe_bounds fs : forall h, h_bounds (fold_left observe fs h) = h_bounds h.
Proof. induction fs as [|f fs IH]; intros h; [reflexivity|]. cbn [fold_left]. rewrite IH. reflexivity. Qed.

Lemma histogram_sum (P : N -> Prop) fs : forall xs h, values fs xs ->
  (forall l l', xs = l ++ l' -> P (total l)) -> (forall n, P n -> fits (Z.of_N n)) -> worth (h_sum h) 0 1 ->
  worth (h_sum (fold_left observe fs h)) (Z.of_N (total xs)) 1.
Proof.
  induction fs as [|v fs IH] using rev_ind; intros xs h HV HP HF H0.
  - inversion HV; subst. exact H0.
  - apply forall2_snoc_inv in HV as (xs' & x & -> & HV & Hx). rewrite fold_snoc, total_snoc. cbn [observe h_sum].
    rewrite N2Z.inj_add. apply add_worth; [|exact Hx|lia|lia|].
    + apply IH; [exact HV| |exact HF|exact H0]. intros l l' ->. apply (HP l (l' ++ [x])). rewrite <- app_assoc. reflexivity.
    + rewrite <- N2Z.inj_add, <- total_snoc. apply HF, (HP (xs' ++ [x]) []). rewrite app_nil_r. reflexivity.
Qed.
Lemma total_app l l' : total (l ++ l') = (total l + total l')%N.
Proof. unfold total. induction l as [|x l IH]; cbn [app fold_right]; [lia|]. rewrite IH. lia. Qed.
Lemma total_times k l : total (map (N.mul k) l) = (k * total l)%N.
Proof. unfold total. induction l as [|x l IH]; cbn [map fold_right]; lia. Qed.

Lemma map_split {A B} (f : A -> B) l l1 l2 : map f l = l1 ++ l2 -> exists r1 r2, l = r1 ++ r2 /\ map f r1 = l1.
Proof.
  revert l. induction l1 as [|y l1 IH]; intros l E; [exists [], l; split; reflexivity|].
  destruct l as [|x l]; [discriminate E|]. cbn [map app] in E. injection E as E1 E. destruct (IH l E) as (r1 & r2 & -> & <-).
  exists (x :: r1), r2. cbn [map]. rewrite E1. split; reflexivity.
Qed.
(** Multiples of 2^j with a sum of at most 2^(53+j) are summed exactly. *)
Lemma histogram_sum_multiples j fs l h : 0 <= Z.of_N j <= 100 -> values fs (map (N.mul (2 ^ j)) l) -> (total l <= 2 ^ 53)%N -> worth (h_sum h) 0 1 ->
  worth (h_sum (fold_left observe fs h)) (Z.of_N (2 ^ j * total l)) 1.
Proof.
  intros Hj HV HT H0. rewrite <- total_times.
  apply (histogram_sum (fun n => exists k, n = (2 ^ j * k)%N /\ (k <= 2 ^ 53)%N)); [exact HV| | |exact H0].
  - intros l1 l2 E. assert (exists r1 r2, l = r1 ++ r2 /\ map (N.mul (2 ^ j)) r1 = l1) as (r1 & r2 & -> & <-).
    { apply (map_split _ l l1 l2 E). }
    exists (total r1). rewrite total_times. split; [reflexivity|]. rewrite total_app in HT. lia.
  - intros n (k & -> & Hk). rewrite N2Z.inj_mul, N2Z.inj_pow. change (Z.of_N 2) with 2.
    assert (Z.of_N k <= 2 ^ 53) by (change (2 ^ 53) with (Z.of_N (2 ^ 53)); lia).
    destruct (Z.eq_dec (Z.of_N k) (2 ^ 53)) as [E|E].
    + exists 1, (Z.of_N j + 53). rewrite E, Z.pow_add_r by lia. lia.
    + exists (Z.of_N k), (Z.of_N j). lia.
Qed.

(** ** The declared bounds *)
Lemma canon_check m e : (2 ^ 52 <=? Zpos m) && (Zpos m <? 2 ^ 53) && (-1074 <=? e) && (e <=? 971) = true -> canon m e.
Proof. intros H. unfold canon. lia. Qed.
Definition worth_b (f : spec_float) (num den : Z) : bool :=
  match f with
  | S754_zero _ => num =? 0
  | S754_finite false m e => ((2 ^ 52 <=? Zpos m) && (Zpos m <? 2 ^ 53) && (-1074 <=? e) && (e <=? 971)) && (Zpos m * 2 ^ (e + 1074) * den =? num * 2 ^ 1074)
  | _ => false
  end.
Lemma worth_check f num den : worth_b f num den = true -> worth f num den.
Proof.
  destruct f as [s|s| |[|] m e]; cbn [worth_b worth]; try discriminate; [apply Z.eqb_eq|].
  intros H. apply andb_prop in H as [H1 H2]. split; [exact (canon_check m e H1)|apply Z.eqb_eq, H2].
Qed.
Fixpoint all2 {A B} (f : A -> B -> bool) (l : list A) (r : list B) : bool :=
  match l, r with [], [] => true | x :: l, y :: r => f x y && all2 f l r | _, _ => false end.
Lemma all2_forall2 {A B} (f : A -> B -> bool) (R : A -> B -> Prop) : (forall x y, f x y = true -> R x y) -> forall l r, all2 f l r = true -> Forall2 R l r.
Proof.
  intros H l. induction l as [|x l IH]; intros [|y r] E; try discriminate E; constructor; cbn [all2] in E; apply andb_prop in E as [E1 E2]; auto.
Qed.
Fixpoint ordered (l : list (Z * Z)) : bool :=
  match l with [] => true | p :: r => forallb (fun q => fst p * snd q <? fst q * snd p) r && ordered r end.
Lemma ordered_pairs l : ordered l = true -> ForallOrdPairs below l.
Proof.
  induction l as [|p r IH]; intros H; constructor; cbn [ordered] in H; apply andb_prop in H as [H1 H2]; [|auto].
  apply Forall_forall. intros q Hq. rewrite forallb_forall in H1. specialize (H1 q Hq). unfold below. lia.
Qed.
Lemma sound_all l : forallb (fun p => (0 <=? fst p) && (0 <? snd p)) l = true -> Forall sound l.
Proof. intros H. rewrite forallb_forall in H. apply Forall_forall. intros p Hp. specialize (H p Hp). unfold sound. lia. Qed.

(** The histogram declared with buckets [bk] has the bounds [ps]. *)
Definition declared (bk : list float) (ps : list (Z * Z)) : Prop :=
  exists bs : list float, new_histogram bk = Some (mkhist bs (map (fun _ : float => 0%N) bs) 0 (float_of 0)) /\
    Forall2 (fun (b : float) p => worth b (fst p) (snd p)) bs ps /\ Forall sound ps /\ ForallOrdPairs below ps.
Lemma declared_check bk ps :
  match check_bounds bk with Some bs => all2 (fun b p => worth_b b (fst p) (snd p)) bs ps | None => false end = true ->
  forallb (fun p => (0 <=? fst p) && (0 <? snd p)) ps = true -> ordered ps = true -> declared bk ps.
Proof.
  intros H1 H2 H3. unfold declared, new_histogram. destruct (check_bounds bk) as [bs|]; [|discriminate H1].
  exists bs. split; [reflexivity|]. split; [|split; [apply sound_all, H2|apply ordered_pairs, H3]].
  apply (all2_forall2 (fun b p => worth_b b (fst p) (snd p))); [|exact H1]. intros b p. apply worth_check.
Qed.
Lemma rate_declared : declared rate_buckets rate_bounds.
Proof. apply declared_check; vm_compute; reflexivity. Qed.
Lemma count_declared : declared count_buckets count_bounds.
Proof. apply declared_check; vm_compute; reflexivity. Qed.

Lemma declared_scrape bk ps fs xs : declared bk ps -> values fs xs -> exists h0, new_histogram bk = Some h0 /\ worth (h_sum h0) 0 1 /\
  exists buckets sum, scrape (fold_left observe fs h0) = (buckets, N.of_nat (length xs), sum) /\ sum = h_sum (fold_left observe fs h0) /\ Forall2 (shown xs) buckets ps.
Proof.
  intros (bs & HN & HB & HS & HO) HV. destruct (histogram_counts bs ps fs xs HB HS HO HV) as (E1 & E2 & E3).
  eexists. split; [exact HN|]. split; [reflexivity|]. eexists _, _. split; [|split; [reflexivity|exact E2]].
  unfold scrape. rewrite E1, E3. reflexivity.
Qed.
