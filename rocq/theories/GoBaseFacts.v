(** Facts about GoBase. *)
From Coq Require Import List NArith ZArith Lia Bool.
From Coq Require Import ZifyBool ZifyNat ZifyN.
From Coq Require Import Strings.Byte.
From Verif Require Import GoBase.
Import ListNotations.
Local Open Scope N_scope.

Lemma bval_lt b : bval b < 256.
Proof. pose proof (Byte.to_N_bounded b); unfold bval; lia. Qed.

Lemma byte_of_bval b : byte_of (bval b) = b.
Proof.
  unfold byte_of, bval. pose proof (Byte.to_N_bounded b) as H.
  rewrite N.mod_small by lia. rewrite Byte.of_to_N. reflexivity.
Qed.

Lemma bval_byte_of x : bval (byte_of x) = x mod 256.
Proof.
  unfold byte_of, bval.
  assert (H : x mod 256 < 256) by (apply N.mod_lt; lia).
  destruct (Byte.of_N (x mod 256)) as [b|] eqn:E.
  - apply Byte.to_of_N in E. exact E.
  - apply Byte.of_N_None_iff in E. lia.
Qed.

Lemma bval_inj a b : bval a = bval b -> a = b.
Proof.
  intro H. rewrite <- (byte_of_bval a), <- (byte_of_bval b), H. reflexivity.
Qed.


Lemma byte_eqb_eq a b : Byte.eqb a b = true <-> a = b.
Proof. split; [apply Byte.byte_dec_bl | apply Byte.byte_dec_lb]. Qed.

Lemma byte_eqb_neq a b : Byte.eqb a b = false <-> a <> b.
Proof.
  destruct (Byte.eqb a b) eqn:E.
  - apply byte_eqb_eq in E. split; congruence.
  - split; [|reflexivity]. intros _ H. apply byte_eqb_eq in H. congruence.
Qed.

Lemma bytes_eqb_eq a b : bytes_eqb a b = true <-> a = b.
Proof.
  revert b. induction a as [|x a IH]; intros [|y b]; cbn; try (split; congruence).
  rewrite andb_true_iff, byte_eqb_eq, IH. split; [intros [-> ->]; reflexivity | intro H; inversion H; auto].
Qed.

Lemma bytes_eqb_refl a : bytes_eqb a a = true.
Proof. apply bytes_eqb_eq; reflexivity. Qed.


(** ** Little endian *)
Lemma le_lt l : le l < 256 ^ N.of_nat (length l).
Proof.
  induction l as [|b l IH]; [cbn; lia|].
  cbn [le length]. rewrite Nat2N.inj_succ, N.pow_succ_r'. pose proof (bval_lt b). nia.
Qed.

Lemma le_enc_length n x : length (le_enc n x) = n.
Proof. revert x; induction n as [|n IH]; intros x; cbn; [reflexivity|rewrite IH; reflexivity]. Qed.

Lemma le_le_enc n x : le (le_enc n x) = x mod 256 ^ N.of_nat n.
Proof.
  revert x. induction n as [|n IH]; intros x.
  - cbn. rewrite N.mod_1_r. reflexivity.
  - cbn [le_enc le]. rewrite IH, bval_byte_of, Nat2N.inj_succ, N.pow_succ_r'.
    rewrite N.mod_mul_r; [lia|lia|].
    apply N.pow_nonzero; lia.
Qed.

Lemma le_enc_le l : le_enc (length l) (le l) = l.
Proof.
  induction l as [|b l IH]; [reflexivity|].
  cbn [length le_enc le].
  assert (Hb := bval_lt b).
  replace ((bval b + 256 * le l) / 256) with (le l).
  2:{ rewrite N.mul_comm, N.div_add by lia. rewrite N.div_small by lia. lia. }
  rewrite IH. f_equal. rewrite <- (byte_of_bval b) at 2. unfold byte_of.
  rewrite N.mul_comm, N.mod_add by lia. reflexivity.
Qed.


Lemma be_lt l : be l < 256 ^ N.of_nat (length l).
Proof. unfold be. rewrite <- rev_length. apply le_lt. Qed.


Lemma sub_length o n l : (o + n <= length l)%nat -> length (sub o n l) = n.
Proof. intro H. unfold sub. rewrite firstn_length, skipn_length. lia. Qed.

Lemma to_of_int64 x : x < two64 -> of_int64 (to_int64 x) = x.
Proof.
  unfold two64, of_int64, to_int64. intro H.
  destruct (x <? 9223372036854775808) eqn:E.
  - rewrite Z.mod_small by lia. lia.
  - replace (Z.of_N x - 18446744073709551616)%Z with (Z.of_N x + (-1) * 18446744073709551616)%Z by lia.
    rewrite Z.mod_add by lia. rewrite Z.mod_small by lia. lia.
Qed.

(** ** Decimal *)
Definition valdr (l : bytes) : N := fold_right (fun d a => (bval d - 48) + 10 * a) 0 l.

Lemma bval_digit n : n < 10 -> bval (digit n) = 48 + n.
Proof. intro H. unfold digit. rewrite bval_byte_of, N.mod_small by lia. reflexivity. Qed.

Lemma dec_go_val f n : n < 2 ^ N.of_nat f -> valdr (dec_go (S f) n) = n.
Proof.
  revert n. induction f as [|f IH]; intros n H.
  - cbn in H. assert (n = 0) by lia. subst. reflexivity.
  - cbn [dec_go]. destruct (N.ltb_spec n 10) as [Hl|Hl].
    + unfold valdr. cbn [fold_right]. rewrite bval_digit by lia. lia.
    + cbn [valdr fold_right]. fold (valdr (dec_go (S f) (n / 10))).
      change ((bval (digit (n mod 10)) - 48) + 10 * valdr (dec_go (S f) (n/10)) = n).
      rewrite IH.
      * rewrite bval_digit by (apply N.mod_lt; lia). pose proof (N.div_mod n 10). lia.
      * rewrite Nat2N.inj_succ, N.pow_succ_r' in H. apply N.div_lt_upper_bound; lia.
Qed.

Lemma size_bound n : n < 2 ^ N.of_nat (N.size_nat n).
Proof.
  assert (E : N.of_nat (N.size_nat n) = N.size n).
  { destruct n as [|p]; [reflexivity|]. cbn. induction p as [p IH|p IH|]; cbn in *; lia. }
  rewrite E. apply N.size_gt.
Qed.

(** Value of a digit string, most significant digit first. *)
Definition vald (l : bytes) : N := fold_left (fun a d => 10 * a + (bval d - 48)) l 0.

Lemma vald_rev l : vald (rev l) = valdr l.
Proof.
  unfold vald, valdr. rewrite <- fold_left_rev_right, rev_involutive.
  induction l as [|d l IH]; [reflexivity|]. cbn [fold_right]. rewrite IH. apply N.add_comm.
Qed.

Lemma vald_dec n : vald (dec n) = n.
Proof. unfold dec. rewrite vald_rev. apply dec_go_val, size_bound. Qed.

Lemma dec_inj a b : dec a = dec b -> a = b.
Proof. intro H. rewrite <- (vald_dec a), <- (vald_dec b), H. reflexivity. Qed.

Definition is_digit (b : byte) : bool := (48 <=? bval b) && (bval b <=? 57).

Lemma dec_go_digits f n : Forall (fun b => is_digit b = true) (dec_go f n).
Proof.
  revert n. induction f as [|f IH]; intros n; cbn [dec_go]; [constructor|].
  assert (D : forall m, m < 10 -> is_digit (digit m) = true).
  { intros m Hm. unfold is_digit. rewrite bval_digit by exact Hm. lia. }
  destruct (N.ltb_spec n 10) as [Hl|Hl].
  - constructor; [apply D; exact Hl | constructor].
  - constructor; [apply D, N.mod_lt; lia | apply IH].
Qed.

Lemma dec_digits n : Forall (fun b => is_digit b = true) (dec n).
Proof. unfold dec. apply Forall_rev, dec_go_digits. Qed.

Lemma dec_nonempty n : dec n <> [].
Proof.
  unfold dec. intro H. apply (f_equal (@rev byte)) in H. rewrite rev_involutive in H.
  cbn [dec_go rev] in H. destruct (n <? 10); discriminate.
Qed.

Lemma decZ_inj a b : decZ a = decZ b -> a = b.
Proof.
  unfold decZ. intro H.
  assert (N0 : forall n t, dec n <> x2d :: t).
  { intros n t E. pose proof (dec_digits n) as D. rewrite E in D. inversion D as [|? ? D1 ?]. discriminate D1. }
  destruct (Z.ltb_spec a 0), (Z.ltb_spec b 0).
  - injection H as E. apply dec_inj in E. lia.
  - symmetry in H. apply N0 in H. contradiction.
  - apply N0 in H. contradiction.
  - apply dec_inj in H. lia.
Qed.

Lemma vald_app_zero k l : vald (repeat x30 k ++ l) = vald l.
Proof.
  induction k as [|k IH]; [reflexivity|]. cbn [repeat app]. unfold vald in *. cbn [fold_left].
  change (bval x30) with 48. exact IH.
Qed.

Lemma dec_pad_inj k a b : dec_pad k a = dec_pad k b -> a = b.
Proof.
  unfold dec_pad. intro H. apply (f_equal vald) in H. rewrite !vald_app_zero, !vald_dec in H. exact H.
Qed.

(** ** Hexadecimal *)
Definition hexval (b : byte) : N := if bval b <? 58 then bval b - 48 else bval b - 55.

Lemma hexval_hexdigit n : n < 16 -> hexval (hexdigit n) = n.
Proof.
  intro H. unfold hexval, hexdigit. destruct (N.ltb_spec n 10).
  - rewrite bval_byte_of, N.mod_small by lia. destruct (N.ltb_spec (48 + n) 58); lia.
  - rewrite bval_byte_of, N.mod_small by lia. destruct (N.ltb_spec (55 + n) 58); lia.
Qed.

Lemma hex_go_val k n : fold_right (fun d a => hexval d + 16 * a) 0 (hex_go k n) = n mod 16 ^ N.of_nat k.
Proof.
  revert n. induction k as [|k IH]; intros n.
  - cbn. rewrite N.mod_1_r. reflexivity.
  - cbn [hex_go fold_right]. rewrite IH, hexval_hexdigit by (apply N.mod_lt; lia).
    rewrite Nat2N.inj_succ, N.pow_succ_r', N.mod_mul_r; [lia|lia|]. apply N.pow_nonzero; lia.
Qed.

Lemma hex_go_length k n : length (hex_go k n) = k.
Proof. revert n; induction k as [|k IH]; intros n; cbn; [reflexivity|rewrite IH; reflexivity]. Qed.

Lemma hex16_length n : length (hex16 n) = 16%nat.
Proof. unfold hex16. rewrite rev_length. apply hex_go_length. Qed.

Lemma hex16_inj a b : a < two64 -> b < two64 -> hex16 a = hex16 b -> a = b.
Proof.
  unfold hex16, two64. intros Ha Hb H. apply (f_equal (@rev byte)) in H. rewrite !rev_involutive in H.
  apply (f_equal (fold_right (fun d a => hexval d + 16 * a) 0)) in H. rewrite !hex_go_val in H.
  rewrite !N.mod_small in H by (cbn; lia). exact H.
Qed.

(** ** Lists *)
Lemma firstn_skipn_comm_sub (A : Type) (l : list A) n m : skipn n (firstn (n + m) l) = firstn m (skipn n l).
Proof.
  revert l. induction n as [|n IH]; intros l; [reflexivity|]. destruct l as [|x l].
  - rewrite firstn_nil, !skipn_nil, firstn_nil. reflexivity.
  - cbn. apply IH.
Qed.



Lemma skipn_skipn_add (A : Type) (l : list A) n m : skipn n (skipn m l) = skipn (m + n) l.
Proof.
  revert l. induction m as [|m IH]; intros l; [reflexivity|].
  destruct l as [|x l]; [rewrite !skipn_nil; reflexivity|]. cbn. apply IH.
Qed.
