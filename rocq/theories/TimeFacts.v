(** The calendar computation is right: [date] returns the unique valid civil
    date of a day number. *)
From Coq Require Import List NArith ZArith Lia Bool.
From Coq Require Import ZifyBool.
From Verif Require Import GoBase GoTime.
Import ListNotations.
Local Open Scope Z_scope.

(** Specification of the civil calendar. *)
Definition month_len (y m : Z) : Z :=
  if m =? 2 then (if is_leap y then 29 else 28)
  else if (m =? 4) || (m =? 6) || (m =? 9) || (m =? 11) then 30 else 31.
Definition valid_date (y m d : Z) : Prop := 1 <= m <= 12 /\ 1 <= d <= month_len y m.
(** Days of the months before month m of year y. *)
Fixpoint months_before (y : Z) (m : nat) : Z :=
  match m with
  | O => 0
  | S k => months_before y k + month_len y (Z.of_nat (S k))
  end.
Definition year_start (y : Z) : Z := 365 * (y - 1) + (y - 1) / 4 - (y - 1) / 100 + (y - 1) / 400.
Definition day_number (y m d : Z) : Z := year_start y + months_before y (Z.to_nat (m - 1)) + d - 1.

Definition year_len (y : Z) : Z := if is_leap y then 366 else 365.

Lemma leap_iff y : is_leap y = true <-> (y mod 4 = 0 /\ (y mod 100 <> 0 \/ y mod 400 = 0)).
Proof. unfold is_leap. lia. Qed.

Lemma year_start_next y : year_start (y + 1) = year_start y + year_len y.
Proof.
  unfold year_start, year_len. destruct (is_leap y) eqn:E.
  - apply leap_iff in E. Z.to_euclidean_division_equations. lia.
  - assert (~ (y mod 4 = 0 /\ (y mod 100 <> 0 \/ y mod 400 = 0))) as E' by (rewrite <- leap_iff; congruence).
    clear E. Z.to_euclidean_division_equations. lia.
Qed.

Lemma year_yday_spec D : let (y, yd) := year_yday D in
  year_start y + yd = D /\ 0 <= yd < year_len y.
Proof.
  unfold year_yday.
  set (n1 := D / 146097). set (d1 := D - 146097 * n1).
  assert (H1 : 0 <= d1 < 146097) by (subst d1 n1; Z.to_euclidean_division_equations; lia).
  assert (E1 : D = 146097 * n1 + d1) by lia. clearbody n1 d1.
  set (q2 := d1 / 36524). set (n2 := q2 - q2 / 4). set (d2 := d1 - 36524 * n2).
  assert (H2 : 0 <= n2 <= 3 /\ 0 <= d2 /\ (d2 < 36524 \/ n2 = 3 /\ d2 = 36524)).
  { subst d2 n2 q2. Z.to_euclidean_division_equations. lia. }
  assert (E2 : d1 = 36524 * n2 + d2) by lia. clearbody n2 d2. clear q2.
  set (n3 := d2 / 1461). set (d3 := d2 - 1461 * n3).
  assert (H3 : 0 <= d3 < 1461 /\ 0 <= n3 <= 24 /\ (n3 = 24 -> n2 <> 3 -> d3 < 1460)).
  { subst d3 n3. Z.to_euclidean_division_equations. lia. }
  assert (E3 : d2 = 1461 * n3 + d3) by lia. clearbody n3 d3.
  set (q4 := d3 / 365). set (n4 := q4 - q4 / 4). set (d4 := d3 - 365 * n4).
  assert (H4 : 0 <= n4 <= 3 /\ 0 <= d4 /\ (d4 < 365 \/ n4 = 3 /\ d4 = 365)).
  { subst d4 n4 q4. Z.to_euclidean_division_equations. lia. }
  assert (E4 : d3 = 365 * n4 + d4) by lia. clearbody n4 d4. clear q4.
  cbn zeta beta iota.
  set (y := 400 * n1 + 100 * n2 + 4 * n3 + n4 + 1).
  assert (A4 : (y - 1) / 4 = 100 * n1 + 25 * n2 + n3).
  { symmetry. apply Z.div_unique with n4; subst y; lia. }
  assert (A100 : (y - 1) / 100 = 4 * n1 + n2).
  { symmetry. apply Z.div_unique with (4 * n3 + n4); subst y; lia. }
  assert (A400 : (y - 1) / 400 = n1).
  { symmetry. apply Z.div_unique with (100 * n2 + 4 * n3 + n4); subst y; lia. }
  split; [unfold year_start; rewrite A4, A100, A400; subst y; lia|].
  split; [lia|]. unfold year_len.
  destruct (Z_lt_ge_dec d4 365) as [L|L]; [destruct (is_leap y); lia|].
  assert (n4 = 3 /\ d4 = 365) as [-> ->] by lia.
  replace (is_leap y) with true; [lia|]. symmetry. apply leap_iff.
  assert (y mod 4 = 0) by (symmetry; apply Z.mod_unique with (100 * n1 + 25 * n2 + n3 + 1); subst y; lia).
  split; [assumption|].
  destruct (Z.eq_dec n3 24) as [->|N3].
  - right. assert (n2 = 3) as -> by lia. symmetry. apply Z.mod_unique with (n1 + 1); subst y; lia.
  - left. intros E. assert (y mod 100 = 4 * n3 + 4) as F.
    { symmetry. apply Z.mod_unique with (4 * n1 + n2); subst y; lia. }
    lia.
Qed.

Definition md_check (leap : bool) (yd : Z) : bool :=
  let y := if leap then 2004 else 2001 in
  let (m, d) := month_day leap yd in
  (1 <=? m) && (m <=? 12) && (1 <=? d) && (d <=? month_len y m)
  && (months_before y (Z.to_nat (m - 1)) + d - 1 =? yd).
Lemma md_check_all : forallb (fun k => md_check true (Z.of_nat k)) (seq 0 366)
                     && forallb (fun k => md_check false (Z.of_nat k)) (seq 0 365) = true.
Proof. vm_compute. reflexivity. Qed.
Lemma months_before_leap y y' m : is_leap y = is_leap y' -> months_before y m = months_before y' m.
Proof. intros E. induction m; [reflexivity|]. cbn [months_before]. rewrite IHm. unfold month_len. rewrite E. reflexivity. Qed.

Lemma month_day_spec y yd : 0 <= yd < year_len y ->
  let (m, d) := month_day (is_leap y) yd in
  valid_date y m d /\ months_before y (Z.to_nat (m - 1)) + d - 1 = yd.
Proof.
  intros H. pose proof md_check_all as C. apply andb_true_iff in C as [C1 C2].
  rewrite forallb_forall in C1, C2.
  assert (K : md_check (is_leap y) yd = true).
  { rewrite <- (Z2Nat.id yd) by lia. unfold year_len in H.
    destruct (is_leap y); [apply C1|apply C2]; apply in_seq; lia. }
  unfold md_check in K. destruct (month_day (is_leap y) yd) as [m d].
  assert (El : is_leap (if is_leap y then 2004 else 2001) = is_leap y) by (destruct (is_leap y); reflexivity).
  unfold valid_date. rewrite (months_before_leap y _ _ (eq_sym El)).
  replace (month_len y m) with (month_len (if is_leap y then 2004 else 2001) m)
    by (unfold month_len; rewrite El; reflexivity).
  lia.
Qed.

Lemma date_spec t : let '(y, m, d) := date t in valid_date y m d /\ day_number y m d = day_of t.
Proof.
  unfold date. pose proof (year_yday_spec (day_of t)) as H. destruct (year_yday (day_of t)) as [y yd].
  destruct H as [E B]. pose proof (month_day_spec y yd B) as K. destruct (month_day (is_leap y) yd) as [m d].
  destruct K as [V K]. split; [exact V|]. unfold day_number. lia.
Qed.

(** Valid dates with the same day number are equal. *)
Lemma month_len_pos y m : 28 <= month_len y m <= 31.
Proof. unfold month_len. repeat match goal with |- context [if ?b then _ else _] => destruct b end; lia. Qed.
Lemma months_before_mono y a b : (a <= b)%nat -> months_before y a <= months_before y b.
Proof. induction 1; [lia|]. cbn [months_before]. pose proof (month_len_pos y (Z.of_nat (S m))). lia. Qed.
Lemma months_before_12 y : months_before y 12 = year_len y.
Proof. cbn. unfold year_len, month_len. cbn. destruct (is_leap y); reflexivity. Qed.
Lemma yday_bounds y m d : valid_date y m d ->
  0 <= months_before y (Z.to_nat (m - 1)) + d - 1 < year_len y.
Proof.
  intros [Hm Hd]. pose proof (months_before_mono y 0 (Z.to_nat (m - 1))) as L0. cbn [months_before] in L0.
  assert (Hs : months_before y (S (Z.to_nat (m - 1))) = months_before y (Z.to_nat (m - 1)) + month_len y m).
  { cbn [months_before]. do 2 f_equal. lia. }
  pose proof (months_before_mono y (S (Z.to_nat (m - 1))) 12) as L1. rewrite months_before_12 in L1. lia.
Qed.
Lemma year_start_mono y y' : y < y' -> year_start y + year_len y <= year_start y'.
Proof. intros H. rewrite <- year_start_next. unfold year_start. Z.to_euclidean_division_equations. lia. Qed.
Example epoch : date 0 = (1970, 1, 1). Proof. reflexivity. Qed.
Example y2k_leap : date (951782400 * second) = (2000, 2, 29). Proof. reflexivity. Qed.
