(** How long the texts in JSON lines can be. *)
From Coq Require Import Strings.String List NArith ZArith Bool Lia.
From Coq Require Import ZifyBool ZifyNat ZifyN.
From Verif Require Import GoBase GoBaseFacts GoTime TimeFacts Rfc3339 Rfc3339Facts Base64 Json.
Import ListNotations.
Local Open Scope list_scope.

Lemma quote_ascii_length c : length (quote_ascii c) <= 6.
Proof. destruct c; vm_compute; lia. Qed.
Lemma quote_length s : length (quote s) <= 6 * length s.
Proof.
  assert (G : forall s copy skip, length (quote_go copy skip s) <= 6 * length s).
  { clear s. induction s as [|c s IH]; intros copy skip; [destruct copy, skip; cbn; lia|].
    cbn [quote_go length]. destruct copy as [|k]; [destruct skip as [|k]|].
    - destruct (bval c <? 128)%N.
      + rewrite app_length. pose proof (quote_ascii_length c). specialize (IH 0 0). lia.
      + destruct (rune_size (c :: s)) as [|k].
        * rewrite app_length. cbn [length]. specialize (IH 0 0). lia.
        * destruct (separator (c :: s)) as [d|].
          -- rewrite app_length. cbn [length]. specialize (IH 0 2). lia.
          -- cbn [length]. specialize (IH k 0). lia.
    - specialize (IH 0 k). lia.
    - cbn [length]. specialize (IH k 0). lia. }
  apply G.
Qed.
Lemma dec_length_64 n : (n < 18446744073709551616)%N -> length (dec n) <= 20.
Proof. intros H. apply dec_length; [lia|]. change (10 ^ N.of_nat 20)%N with 100000000000000000000%N. lia. Qed.
Lemma decZ_length z : (-9223372036854775808 <= z <= 9223372036854775807)%Z -> length (decZ z) <= 21.
Proof.
  intros H. unfold decZ. destruct (Z.ltb_spec z 0); cbn [length].
  - pose proof (dec_length_64 (Z.to_N (- z))). lia.
  - pose proof (dec_length_64 (Z.to_N z)). lia.
Qed.
Lemma drop_zeros_length l : length (drop_zeros l) <= length l.
Proof. induction l as [|c l IH]; [cbn; lia|]. cbn [length]. destruct c; cbn [drop_zeros length] in *; lia. Qed.
Lemma dec_pad_le k n j : (n < 10 ^ N.of_nat j)%N -> 0 < j -> j <= k -> length (dec_pad k n) <= k.
Proof. intros H J K. unfold dec_pad. rewrite app_length, repeat_length. pose proof (dec_length n j J H). lia. Qed.
Lemma append_int_le n k : 0 < k -> (0 <= n < 10 ^ Z.of_nat k)%Z -> length (append_int n k) <= k.
Proof. intros K H. destruct (append_facts k n K H) as (-> & _). lia. Qed.
Lemma nano_length ns : (0 <= ns < second)%Z -> length (nano ns) <= 10.
Proof.
  intros H. unfold nano. pose proof (drop_zeros_length (rev (dec_pad 9 (Z.to_N ns)))) as L. rewrite rev_length in L.
  pose proof (dec_pad_le 9 (Z.to_N ns) 9) as K. change (10 ^ N.of_nat 9)%N with 1000000000%N in K. unfold second in H.
  destruct (drop_zeros _) as [|c d] eqn:E; cbn [length] in *; [lia|].
  change (length (rev (c :: d))) with (length (rev (c :: d))). rewrite rev_length. cbn [length]. lia.
Qed.
Lemma zone_length off : (-1440 < off < 1440)%Z -> length (zone_text off) <= 6.
Proof.
  intros O. unfold zone_text. destruct (Z.eqb_spec off 0); [cbn [length]; lia|]. cbn [length]. rewrite !app_length. cbn [length].
  pose proof (append_int_le (Z.abs off / 60) 2 ltac:(lia)) as A. pose proof (append_int_le (Z.abs off mod 60) 2 ltac:(lia)) as B.
  change (10 ^ Z.of_nat 2)%Z with 100%Z in *.
  assert (0 <= Z.abs off / 60 < 100)%Z by (Z.to_euclidean_division_equations; lia).
  assert (0 <= Z.abs off mod 60 < 100)%Z by (Z.to_euclidean_division_equations; lia). lia.
Qed.
Lemma time_length off t s : marshal_time off t = Some s -> length s <= 35.
Proof.
  unfold marshal_time, rfc3339.
  pose proof (date_spec (t + off * minute)) as V. pose proof (clock_bounds (t + off * minute)) as B.
  destruct (date (t + off * minute)) as [[y m] d]. destruct (clock_of (t + off * minute)) as [[[hh mm] ss] ns].
  destruct V as [[Hm Hd] _]. destruct B as (B1 & B2 & B3 & B4).
  destruct ((0 <=? y)%Z && (y <=? 9999)%Z && (Z.abs off / 60 <? 24)%Z) eqn:C; [|discriminate].
  assert (Hy : (0 <= y <= 9999)%Z) by lia.
  assert (Ho : (-1440 < off < 1440)%Z) by (clear -C; Z.to_euclidean_division_equations; lia).
  clear C. intros K. injection K as <-.
  pose proof (month_len_pos y m) as ML.
  destruct (four_digits y Hy) as (y1 & y2 & y3 & y4 & -> & _).
  destruct (two_digits m ltac:(lia)) as (m1 & m2 & -> & _).
  destruct (two_digits d ltac:(lia)) as (d1 & d2 & -> & _).
  destruct (two_digits hh ltac:(lia)) as (h1 & h2 & -> & _).
  destruct (two_digits mm ltac:(lia)) as (i1 & i2 & -> & _).
  destruct (two_digits ss ltac:(lia)) as (s1 & s2 & -> & _).
  repeat (rewrite ?app_length; cbn [length app]). pose proof (nano_length ns B4). pose proof (zone_length off Ho). lia.
Qed.
(** Base64: four characters for three bytes *)
Lemma b64_length b : length (b64_encode b) = 4 * ((length b + 2) / 3).
Proof.
  assert (G : forall n b, length b <= n -> length (b64_encode b) = 4 * ((length b + 2) / 3)).
  { induction n as [|n IH]; intros [|x [|y [|z r]]] L; cbn [length] in L; try lia; try reflexivity.
    cbn [b64_encode length app]. cbv zeta. cbn [length]. rewrite IH by lia. replace (S (S (S (length r))) + 2) with (length r + 2 + 1 * 3) by lia.
    rewrite Nat.div_add by lia. lia. }
  apply (G _ b (Nat.le_refl _)).
Qed.
