(** The uint64 computation and the one of GoTime.v are the same. *)
From Coq Require Import List NArith ZArith Bool Lia.
From Verif Require Import GoBase GoTime GoDate.
Local Open Scope Z_scope.

Lemma u64z_small x : 0 <= x < 18446744073709551616 -> u64z x = x.
Proof. intros H. unfold u64z. apply Z.mod_small. exact H. Qed.
Lemma i64z_small x : -9223372036854775808 <= x < 9223372036854775808 -> i64z x = x.
Proof. intros H. unfold i64z. rewrite Z.mod_small; lia. Qed.
Lemma u64z_i64z x : u64z (i64z x) = u64z x.
Proof. unfold u64z, i64z. Z.to_euclidean_division_equations. lia. Qed.
Lemma shift2 n : Z.shiftr n 2 = n / 4.
Proof. rewrite Z.shiftr_div_pow2 by lia. reflexivity. Qed.
Definition shift_days : Z := 730692556.
Lemma go_abs_days sec : -9223372028715321600 <= sec < 9223372036854775808 ->
  go_abs sec = sec + 9223372028715321600.
Proof.
  intros H. unfold go_abs. rewrite u64z_i64z. change (unix_to_internal + internal_to_absolute) with 9223372028715321600.
  apply u64z_small. lia.
Qed.
Lemma days sec : (sec + 9223372028715321600) / 86400 = sec / 86400 + 719162 + 146097 * shift_days.
Proof. unfold shift_days. Z.to_euclidean_division_equations. lia. Qed.
Lemma go_year sec : -9223372028715321600 <= sec < 9223372036854775808 ->
  go_year_yday (go_abs sec) = year_yday (sec / 86400 + 719162).
Proof.
  intros H. rewrite go_abs_days by exact H. unfold go_year_yday, year_yday. rewrite days. cbn zeta. rewrite !shift2.
  set (D := sec / 86400 + 719162).
  assert (HD : 0 <= D + 146097 * shift_days < 213503982334602) by (subst D; unfold shift_days; Z.to_euclidean_division_equations; lia).
  clearbody D. clear H.
  assert (E : (D + 146097 * shift_days) / 146097 = D / 146097 + shift_days) by (unfold shift_days in *; Z.to_euclidean_division_equations; lia).
  rewrite E. set (n1 := D / 146097).
  assert (B1 : 0 <= n1 + shift_days <= 1500000000) by (unfold n1; rewrite <- E; Z.to_euclidean_division_equations; lia).
  assert (E1 : 0 <= D - 146097 * n1 < 146097) by (subst n1; Z.to_euclidean_division_equations; lia).
  rewrite (u64z_small (146097 * (n1 + shift_days))) by lia. rewrite (u64z_small (400 * (n1 + shift_days))) by lia.
  replace (D + 146097 * shift_days - 146097 * (n1 + shift_days)) with (D - 146097 * n1) by lia.
  rewrite (u64z_small (D - 146097 * n1)) by lia. set (d1 := D - 146097 * n1) in *. clearbody d1. clear E HD.
  set (n2 := d1 / 36524 - d1 / 36524 / 4).
  assert (H2 : 0 <= n2 <= 3 /\ 0 <= d1 - 36524 * n2 <= 36524) by (subst n2; Z.to_euclidean_division_equations; lia).
  rewrite (u64z_small n2) by lia. rewrite (u64z_small (100 * n2)), (u64z_small (36524 * n2)) by lia.
  rewrite (u64z_small (d1 - 36524 * n2)) by lia. rewrite (u64z_small (400 * (n1 + shift_days) + 100 * n2)) by lia.
  set (d2 := d1 - 36524 * n2) in *. clearbody d2. clearbody n2.
  set (n3 := d2 / 1461).
  assert (H3 : 0 <= n3 <= 24 /\ 0 <= d2 - 1461 * n3 < 1461) by (subst n3; Z.to_euclidean_division_equations; lia).
  rewrite (u64z_small (4 * n3)), (u64z_small (1461 * n3)) by lia. rewrite (u64z_small (d2 - 1461 * n3)) by lia.
  rewrite (u64z_small (400 * (n1 + shift_days) + 100 * n2 + 4 * n3)) by lia.
  set (d3 := d2 - 1461 * n3) in *. clearbody d3. clearbody n3.
  set (n4 := d3 / 365 - d3 / 365 / 4).
  assert (H4 : 0 <= n4 <= 3 /\ 0 <= d3 - 365 * n4 <= 365) by (subst n4; Z.to_euclidean_division_equations; lia).
  rewrite (u64z_small n4) by lia. rewrite (u64z_small (365 * n4)) by lia. rewrite (u64z_small (d3 - 365 * n4)) by lia.
  rewrite (u64z_small (400 * (n1 + shift_days) + 100 * n2 + 4 * n3 + n4)) by lia.
  rewrite (i64z_small (d3 - 365 * n4)) by lia.
  rewrite (i64z_small (400 * (n1 + shift_days) + 100 * n2 + 4 * n3 + n4)) by lia.
  rewrite i64z_small by (unfold absolute_zero_year; lia). f_equal. unfold absolute_zero_year, shift_days. lia.
Qed.
Lemma go_date_is t : -9223372028715321600 <= unix t < 9223372036854775808 -> go_date t = date t.
Proof. intros H. unfold go_date, date, day_of. rewrite go_year by exact H. reflexivity. Qed.
Lemma go_clock_is t : -9223372028715321600 <= unix t < 9223372036854775808 -> go_clock t = clock_of t.
Proof.
  intros H. unfold go_clock, clock_of. rewrite go_abs_days by exact H.
  replace ((unix t + 9223372028715321600) mod 86400) with (unix t mod 86400) by (Z.to_euclidean_division_equations; lia).
  set (s := unix t mod 86400). assert (0 <= s < 86400) by (subst s; apply Z.mod_pos_bound; lia). clearbody s. cbn zeta.
  replace (s - s / 3600 * 3600) with (s mod 3600) by (Z.to_euclidean_division_equations; lia).
  replace (s mod 3600 - s mod 3600 / 60 * 60) with (s mod 60) by (Z.to_euclidean_division_equations; lia). reflexivity.
Qed.
