(** The paths of the files are as SpecPath.v says. *)
From Coq Require Import Strings.String List NArith ZArith Lia Bool.
From Coq Require Import ZifyBool ZifyNat ZifyN.
From Verif Require Import GoBase GoBaseFacts GoTime TimeFacts Saver SpecPath.
Import ListNotations.
Local Open Scope list_scope.
Local Open Scope N_scope.

(** * Numerals *)
Lemma means_digit n : n < 10 -> digit_means (digit n) n.
Proof. intros H. left. rewrite bval_digit by exact H. lia. Qed.
Lemma means_hex n : n < 16 -> digit_means (hexdigit n) n.
Proof.
  intros H. unfold digit_means, hexdigit. destruct (N.ltb_spec n 10); rewrite bval_byte_of, N.mod_small by lia; lia.
Qed.
Lemma numeral_hex k : forall n, numeral 16 (rev (hex_go k n)) (n mod 16 ^ N.of_nat k).
Proof.
  induction k as [|k IH]; intros n; [rewrite N.mod_1_r; constructor|].
  cbn [hex_go rev]. rewrite Nat2N.inj_succ, N.pow_succ_r', N.mod_mul_r; [|lia | apply N.pow_nonzero; lia].
  rewrite N.add_comm. assert (n mod 16 < 16) by (apply N.mod_lt; lia). apply nu_snoc; [apply IH | apply means_hex; assumption | assumption].
Qed.
Lemma numeral_dec_go f : forall n, n < 2 ^ N.of_nat f -> numeral 10 (rev (dec_go (S f) n)) n.
Proof.
  assert (one : forall n, n < 10 -> numeral 10 (rev [digit n]) n).
  { intros n H. cbn [rev app]. replace n with (10 * 0 + n) at 2 by lia. apply (nu_snoc 10 [] 0); [constructor | apply means_digit; exact H | exact H]. }
  induction f as [|f IH]; intros n H.
  - cbn in H. assert (n = 0) by lia. subst. cbn [dec_go]. apply one. lia.
  - change (dec_go (S (S f)) n) with (if n <? 10 then [digit n] else digit (n mod 10) :: dec_go (S f) (n / 10)).
    destruct (N.ltb_spec n 10) as [L|L]; [apply one; exact L|].
    assert (Q : n / 10 < 2 ^ N.of_nat f) by (rewrite Nat2N.inj_succ, N.pow_succ_r' in H; apply N.div_lt_upper_bound; lia).
    specialize (IH _ Q). assert (R : n mod 10 < 10) by (apply N.mod_lt; lia). pose proof (N.div_mod n 10 ltac:(lia)) as E.
    set (q := n / 10) in *. set (r := n mod 10) in *. clearbody q r. subst n. cbn [rev]. apply nu_snoc; [exact IH | apply means_digit; exact R | exact R].
Qed.
Lemma numeral_dec n : numeral 10 (dec n) n.
Proof. apply numeral_dec_go, size_bound. Qed.
Lemma numeral_zeros k t n : numeral 10 t n -> numeral 10 (repeat x30 k ++ t) n.
Proof.
  induction 1 as [|t n c d H IH M L].
  - rewrite app_nil_r. induction k as [|k IH]; [constructor|]. cbn [repeat]. rewrite repeat_cons. apply (nu_snoc 10 _ 0 _ 0 IH); [left; split; [vm_compute; split; discriminate | reflexivity] | lia].
  - rewrite app_assoc. apply nu_snoc; assumption.
Qed.
Lemma dec_go_last f : forall n, 0 < n < 2 ^ N.of_nat f -> exists l d, dec_go (S f) n = l ++ [digit d] /\ 0 < d < 10.
Proof.
  induction f as [|f IH]; intros n H; [cbn in H; lia|].
  change (dec_go (S (S f)) n) with (if n <? 10 then [digit n] else digit (n mod 10) :: dec_go (S f) (n / 10)).
  destruct (N.ltb_spec n 10) as [L|L]; [exists [], n; split; [reflexivity | lia]|].
  destruct (IH (n / 10)) as (l & d & E & D).
  { rewrite Nat2N.inj_succ, N.pow_succ_r' in H. split; [apply N.div_str_pos; lia | apply N.div_lt_upper_bound; lia]. }
  exists (digit (n mod 10) :: l), d. rewrite E. split; [reflexivity | exact D].
Qed.
Lemma dec_first n r : dec n = x30 :: r -> n = 0.
Proof.
  intros H. destruct (N.eq_dec n 0) as [|Z]; [assumption|]. exfalso. unfold dec in H.
  destruct (dec_go_last (N.size_nat n) n) as (l & d & E & D); [pose proof (size_bound n); lia|].
  rewrite E, rev_app_distr in H. cbn [rev app] in H. injection H as H _. apply (f_equal bval) in H. rewrite bval_digit in H by lia.
  change (bval x30) with 48 in H. lia.
Qed.
Lemma padded_dec k n : (0 < k)%nat -> padded 10 k (dec_pad k n) n.
Proof.
  intros K. split; [apply numeral_zeros, numeral_dec|]. unfold dec_pad. destruct (Nat.le_gt_cases (length (dec n)) k) as [L|L].
  - left. rewrite app_length, repeat_length. lia.
  - right. replace (k - length (dec n))%nat with 0%nat by lia. cbn [repeat app]. split; [exact L|]. intros r E.
    apply dec_first in E. subst n. cbn in L. lia.
Qed.
Lemma padded_hex n : n < two64 -> padded 16 16 (hex16 n) n.
Proof.
  intros H. split; [|left; apply hex16_length]. unfold hex16.
  replace n with (n mod 16 ^ N.of_nat 16) at 2; [apply numeral_hex|]. apply N.mod_small. exact H.
Qed.
(** A numeral has one meaning, and one text for its length. *)
Lemma digit_unique c d d' : digit_means c d -> digit_means c d' -> d = d'.
Proof. unfold digit_means. lia. Qed.
Lemma numeral_unique base t n n' : numeral base t n -> numeral base t n' -> n = n'.
Proof.
  intros H. revert n'. induction H as [|t n c d H IH M L]; intros n' H'.
  - inversion H' as [|t0 n0 c0 d0 ? ? ? E]; [reflexivity | destruct t0; discriminate E].
  - inversion H' as [E|t0 n0 c0 d0 H0 M0 L0 E]; [destruct t; discriminate E|]. apply app_inj_tail in E. destruct E as [-> ->].
    rewrite (IH _ H0), (digit_unique _ _ _ M M0). reflexivity.
Qed.

(** * The calendar *)
Local Open Scope Z_scope.
Lemma leap_year_iff y : leap_year y <-> is_leap y = true.
Proof.
  rewrite leap_iff. unfold leap_year. rewrite <- (Z.mod_divide y 4), <- (Z.mod_divide y 100), <- (Z.mod_divide y 400) by lia. reflexivity.
Qed.
Lemma last_iff y m l : last_of_month y m l <-> 1 <= m <= 12 /\ l = month_len y m.
Proof.
  split.
  - intros H. inversion H as [y0 m0 I|y0 m0 I|y0 Y|y0 Y]; subst.
    + cbn in I. repeat (destruct I as [<-|I]; [split; [lia | reflexivity]|]). destruct I.
    + cbn in I. repeat (destruct I as [<-|I]; [split; [lia | reflexivity]|]). destruct I.
    + apply leap_year_iff in Y. split; [lia|]. unfold month_len. rewrite Y. reflexivity.
    + rewrite leap_year_iff in Y. split; [lia|]. unfold month_len. destruct (is_leap y); [contradiction|reflexivity].
  - intros [M ->]. assert (C : m = 2 \/ In m [4; 6; 9; 11] \/ In m [1; 3; 5; 7; 8; 10; 12]) by (cbn; lia). destruct C as [->|[C|C]].
    + unfold month_len. cbn. destruct (is_leap y) eqn:E; [apply lm_leap, leap_year_iff, E|]. apply lm_common. rewrite leap_year_iff. congruence.
    + cbn in C. repeat (destruct C as [<-|C]; [apply lm_short; cbn; tauto|]). destruct C.
    + cbn in C. repeat (destruct C as [<-|C]; [apply lm_long; cbn; tauto|]). destruct C.
Qed.
Definition valid3 (x : Z * Z * Z) : Prop := let '(y, m, d) := x in valid_date y m d.
Definition number3 (x : Z * Z * Z) : Z := let '(y, m, d) := x in day_number y m d.
Lemma months_before_next y m : 1 <= m -> months_before y (Z.to_nat (m + 1 - 1)) = months_before y (Z.to_nat (m - 1)) + month_len y m.
Proof.
  intros M. replace (Z.to_nat (m + 1 - 1)) with (S (Z.to_nat (m - 1))) by lia. cbn [months_before]. do 2 f_equal. lia.
Qed.
Lemma tomorrow_number x y : tomorrow x y -> valid3 x /\ valid3 y /\ number3 y = number3 x + 1.
Proof.
  intros [y0 m d l L D|y0 m d L M|y0]; cbn [valid3 number3]; unfold valid_date, day_number.
  - apply last_iff in L. lia.
  - apply last_iff in L. destruct L as [M1 ->]. pose proof (month_len_pos y0 m). pose proof (month_len_pos y0 (m + 1)).
    rewrite months_before_next by lia. lia.
  - pose proof (month_len_pos (y0 + 1) 1). pose proof (month_len_pos y0 12). rewrite year_start_next.
    assert (month_len y0 12 = 31) as -> by reflexivity. split; [lia|]. split; [lia|].
    pose proof (months_before_12 y0) as E. cbn [months_before] in E. change (month_len y0 (Z.of_nat 12)) with 31 in E.
    replace (Z.to_nat (1 - 1)) with 0%nat by lia. replace (Z.to_nat (12 - 1)) with 11%nat by lia. cbn [months_before]. lia.
Qed.
Lemma has_tomorrow x : valid3 x -> exists y, tomorrow x y.
Proof.
  destruct x as [[y m] d]. intros [M D]. destruct (Z.eq_dec d (month_len y m)) as [E|E].
  - destruct (Z.eq_dec m 12) as [->|M'].
    + exists (y + 1, 1, 1). rewrite E. constructor.
    + exists (y, m + 1, 1). constructor; [|lia]. apply last_iff. split; [lia | exact E].
  - exists (y, m, d + 1). apply (tm_day y m d (month_len y m)); [apply last_iff; split; [lia | reflexivity] | lia].
Qed.
Definition date_of (n : Z) : Z * Z * Z := date (n * 86400000000000).
Lemma date_of_ok n : valid3 (date_of n) /\ number3 (date_of n) = n + 719162.
Proof.
  unfold date_of. pose proof (date_spec (n * 86400000000000)) as H. destruct (date (n * 86400000000000)) as [[y m] d]. destruct H as [V E].
  split; [exact V|]. cbn [number3]. rewrite E. unfold day_of, unix, second. Z.to_euclidean_division_equations. lia.
Qed.
Lemma number_before y m d m' d' : valid_date y m d -> valid_date y m' d' -> m < m' -> day_number y m d < day_number y m' d'.
Proof.
  intros [M D] [M' D'] L. unfold day_number. pose proof (months_before_next y m ltac:(lia)) as E.
  pose proof (months_before_mono y (Z.to_nat (m + 1 - 1)) (Z.to_nat (m' - 1)) ltac:(lia)). lia.
Qed.
Lemma number_year y m d y' m' d' : valid_date y m d -> valid_date y' m' d' -> y < y' -> day_number y m d < day_number y' m' d'.
Proof.
  intros V V' L. pose proof (yday_bounds y m d V). pose proof (yday_bounds y' m' d' V'). pose proof (year_start_mono y y' L). unfold day_number. lia.
Qed.
Lemma number_inj x y : valid3 x -> valid3 y -> number3 x = number3 y -> x = y.
Proof. destruct x as [[a b] c], y as [[a' b'] c']. cbn [valid3 number3]. intros V V' E.
  destruct (Z.lt_trichotomy a a') as [L|[<-|L]]; [pose proof (number_year _ _ _ _ _ _ V V' L); lia | | pose proof (number_year _ _ _ _ _ _ V' V L); lia].
  destruct (Z.lt_trichotomy b b') as [L|[<-|L]]; [pose proof (number_before _ _ _ _ _ V V' L); lia | | pose proof (number_before _ _ _ _ _ V' V L); lia].
  unfold day_number in E. replace c' with c by lia. reflexivity.
Qed.
Lemma day_is_number n x : day_is n x -> valid3 x /\ number3 x = n + 719162.
Proof.
  induction 1 as [|n x y H IH T|n x y H IH T].
  - split; [|reflexivity]. cbn. unfold valid_date. cbn. lia.
  - apply tomorrow_number in T. destruct T as (_ & V & E), IH as [_ E']. split; [exact V | lia].
  - apply tomorrow_number in T. destruct T as (V & _ & E), IH as [_ E']. split; [exact V | lia].
Qed.
Lemma date_next n : tomorrow (date_of n) (date_of (n + 1)).
Proof.
  destruct (date_of_ok n) as [V E]. destruct (has_tomorrow _ V) as (y & T). pose proof (tomorrow_number _ _ T) as (_ & Vy & Ey).
  destruct (date_of_ok (n + 1)) as [V1 E1]. replace (date_of (n + 1)) with y; [exact T|]. apply number_inj; [exact Vy | exact V1 | lia].
Qed.
Lemma day_is_date n : day_is n (date_of n).
Proof.
  revert n. assert (P : forall k, day_is (Z.of_nat k) (date_of (Z.of_nat k))).
  { induction k as [|k IH]; [exact di_epoch|]. rewrite Nat2Z.inj_succ. unfold Z.succ. eapply di_later; [exact IH | apply date_next]. }
  assert (M : forall k, day_is (- Z.of_nat k) (date_of (- Z.of_nat k))).
  { induction k as [|k IH]; [exact di_epoch|]. apply di_earlier with (date_of (- Z.of_nat (S k) + 1)); [|apply date_next].
    replace (- Z.of_nat (S k) + 1) with (- Z.of_nat k) by lia. exact IH. }
  intros n. destruct (Z_le_gt_dec 0 n) as [L|L]; [specialize (P (Z.to_nat n)); rewrite Z2Nat.id in P by lia; exact P|].
  specialize (M (Z.to_nat (- n))). rewrite Z2Nat.id in M by lia. rewrite Z.opp_involutive in M. exact M.
Qed.
Lemma day_is_iff n x : day_is n x <-> x = date_of n.
Proof.
  split; [|intros ->; apply day_is_date]. intros H. apply day_is_number in H. destruct (date_of_ok n) as [V E].
  apply number_inj; [exact (proj1 H) | exact V | lia].
Qed.
Lemma date_at_iff t x : date_at t x <-> x = date t.
Proof.
  assert (D : forall n, n * 86400000000000 <= t < (n + 1) * 86400000000000 -> date_of n = date t).
  { intros n H. unfold date_of, date. replace (day_of (n * 86400000000000)) with (day_of t); [reflexivity|].
    unfold day_of, unix, second. Z.to_euclidean_division_equations. lia. }
  split.
  - intros (n & B & H). apply day_is_iff in H. rewrite H. apply D, B.
  - intros ->. exists (t / 86400000000000). assert (B : t / 86400000000000 * 86400000000000 <= t < (t / 86400000000000 + 1) * 86400000000000) by (Z.to_euclidean_division_equations; lia).
    split; [exact B|]. apply day_is_iff. symmetry. apply D, B.
Qed.
(** From the year 0 on. *)
Lemma year_pos t : -62167219200000000000 <= t -> 0 <= fst (fst (date t)).
Proof.
  intros H. pose proof (date_spec t) as S. destruct (date t) as [[y m] d]. destruct S as [V E]. cbn [fst].
  destruct (Z_le_gt_dec 0 y) as [L|L]; [exact L|]. exfalso. pose proof (yday_bounds y m d V) as B.
  pose proof (year_start_mono y 0 ltac:(lia)) as M. assert (year_start 0 = -366) as Y by reflexivity. unfold day_number in E.
  assert (-366 <= day_of t) by (unfold day_of, unix, second; Z.to_euclidean_division_equations; lia). lia.
Qed.

Lemma path_ok prefix t k seq : -62167219200000000000 <= t -> (k < two64)%N ->
  path_of prefix t k seq (file_path (format_date t) (from_cookie prefix k) seq).
Proof.
  intros T K. pose proof (year_pos t T) as Y. pose proof (date_spec t) as S. destruct (date t) as [[y m] d] eqn:E. destruct S as [[M D] _]. cbn [fst] in Y.
  pose proof (month_len_pos y m). exists y, m, d, (append_int y 4), (append_int m 2), (append_int d 2), (hex16 k), (dec_pad 5 (N.of_nat seq)).
  assert (A : forall x w, 0 <= x -> (0 < w)%nat -> padded 10 w (append_int x w) (Z.to_N x)).
  { intros x w X W. unfold append_int. destruct (Z.ltb_spec x 0) as [L|_]; [lia|]. apply padded_dec, W. }
  split; [apply date_at_iff; symmetry; exact E|]. split; [apply A; lia|]. split; [apply A; lia|]. split; [apply A; lia|].
  split; [apply padded_hex, K|]. split; [apply padded_dec; lia|].
  unfold file_path, from_cookie, format_date. rewrite E. rewrite <- !app_assoc. reflexivity.
Qed.

(** A path tells the prefix, the day, the cookie and the sequence number. *)
Lemma digit_not c d : digit_means c d -> c <> x2e /\ c <> x5f /\ c <> x2f.
Proof. unfold digit_means. intros H. repeat split; intros ->; cbn in H; lia. Qed.
Lemma numeral_clean base t n : numeral base t n -> ~ In x2e t /\ ~ In x5f t /\ ~ In x2f t.
Proof.
  induction 1 as [|t n c d _ IH M _]; [cbn; tauto|]. apply digit_not in M. rewrite !in_app_iff. cbn. intuition congruence.
Qed.
Lemma last_sep (c : byte) x y d e : ~ In c d -> ~ In c e -> x ++ c :: d = y ++ c :: e -> x = y /\ d = e.
Proof.
  intros D E. revert y. induction x as [|a x IH]; intros [|b y] H; cbn in H.
  - injection H as ->. split; reflexivity.
  - injection H as -> ->. destruct D. apply in_app_iff. right. left. reflexivity.
  - injection H as -> <-. destruct E. apply in_app_iff. right. left. reflexivity.
  - injection H as -> H. destruct (IH _ H) as [-> ->]. split; reflexivity.
Qed.
Lemma date_at_year t y m d : -62167219200000000000 <= t -> date_at t (y, m, d) -> 0 <= y /\ 0 <= m /\ 0 <= d.
Proof.
  intros T H. apply date_at_iff in H. pose proof (year_pos t T) as Y. pose proof (date_spec t) as S. rewrite <- H in Y, S. destruct S as [[M D] _]. cbn [fst] in Y. lia.
Qed.
Lemma path_tells P P' t t' k k' n n' p : -62167219200000000000 <= t -> -62167219200000000000 <= t' -> ~ In x2f P -> ~ In x2f P' ->
  path_of P t k n p -> path_of P' t' k' n' p -> P = P' /\ (exists x, date_at t x /\ date_at t' x) /\ k = k' /\ n = n'.
Proof.
  intros T T' S S' (y & m & d & Y & M & D & K & N & A & HY & HM & HD & HK & HN & E) (y' & m' & d' & Y' & M' & D' & K' & N' & A' & HY' & HM' & HD' & HK' & HN' & E').
  rewrite E in E'. clear E p. destruct HY as [HY _], HM as [HM _], HD as [HD _], HK as [HK _], HN as [HN _], HY' as [HY' _], HM' as [HM' _], HD' as [HD' _], HK' as [HK' _], HN' as [HN' _].
  pose proof (numeral_clean _ _ _ HM) as CM. pose proof (numeral_clean _ _ _ HD) as CD. pose proof (numeral_clean _ _ _ HK) as CK. pose proof (numeral_clean _ _ _ HN) as CN.
  pose proof (numeral_clean _ _ _ HM') as CM'. pose proof (numeral_clean _ _ _ HD') as CD'. pose proof (numeral_clean _ _ _ HK') as CK'. pose proof (numeral_clean _ _ _ HN') as CN'.
  rewrite !app_assoc in E'. apply app_inv_tail in E'.
  rewrite <- (app_assoc _ (str ".") N), <- (app_assoc _ (str ".") N') in E'. apply last_sep in E'; [|tauto..]. destruct E' as [E' <-].
  rewrite <- (app_assoc _ (str "_") K), <- (app_assoc _ (str "_") K') in E'. apply last_sep in E'; [|tauto..]. destruct E' as [E' <-].
  rewrite <- (app_assoc _ (str "/") P), <- (app_assoc _ (str "/") P') in E'. apply last_sep in E'; [|tauto..]. destruct E' as [E' <-].
  rewrite <- (app_assoc _ (str "/") D), <- (app_assoc _ (str "/") D') in E'. apply last_sep in E'; [|tauto..]. destruct E' as [E' <-].
  rewrite <- (app_assoc _ (str "/") M), <- (app_assoc _ (str "/") M') in E'. apply last_sep in E'; [|tauto..]. destruct E' as [<- <-].
  pose proof (numeral_unique _ _ _ _ HY HY'). pose proof (numeral_unique _ _ _ _ HM HM'). pose proof (numeral_unique _ _ _ _ HD HD').
  pose proof (date_at_year _ _ _ _ T A). pose proof (date_at_year _ _ _ _ T' A').
  assert (y = y' /\ m = m' /\ d = d') as (-> & -> & ->) by lia.
  split; [reflexivity|]. split; [exists (y', m', d'); split; assumption|]. split; [exact (numeral_unique _ _ _ _ HK HK')|].
  pose proof (numeral_unique _ _ _ _ HN HN'). lia.
Qed.
