(** RFC 3339: reading what was written gives the same instant, and the
    characters used. *)
From Coq Require Import Strings.String List NArith ZArith Bool Lia.
From Coq Require Import ZifyBool ZifyNat ZifyN.
From Verif Require Import GoBase GoBaseFacts GoTime TimeFacts Rfc3339.
Import ListNotations.
Local Open Scope Z_scope.
Local Open Scope list_scope.

(** ** Digits *)
Definition digits (l : bytes) : Prop := Forall (fun c => digit_char c = true) l.

Lemma uint_go_vald l : digits l -> forall x, uint_go (Z.of_N x) l = Some (Z.of_N (fold_left (fun a d => (10 * a + (bval d - 48))%N) l x)).
Proof.
  induction 1 as [|c l Hc Hl IH]; intros x; [reflexivity|]. cbn [uint_go fold_left]. rewrite Hc.
  rewrite <- IH. f_equal. unfold digit_char in Hc. lia.
Qed.
Lemma uint_digits l : digits l -> uint_go 0 l = Some (Z.of_N (vald l)).
Proof. intros H. exact (uint_go_vald l H 0%N). Qed.

Lemma dec_go_length f : forall n k, (0 < k)%nat -> (n < 10 ^ N.of_nat k)%N -> (length (dec_go f n) <= k)%nat.
Proof.
  induction f as [|f IH]; intros n k Hk H; cbn [dec_go]; [cbn; lia|].
  destruct (N.ltb_spec n 10) as [L|L]; [cbn; lia|]. cbn [length].
  destruct k as [|[|k]]; [lia|change (10 ^ N.of_nat 1)%N with 10%N in H; lia|].
  specialize (IH (n / 10)%N (S k) ltac:(lia)).
  rewrite Nat2N.inj_succ, N.pow_succ_r' in H. apply le_n_S, IH. apply N.div_lt_upper_bound; lia.
Qed.
Lemma dec_length n k : (0 < k)%nat -> (n < 10 ^ N.of_nat k)%N -> (length (dec n) <= k)%nat.
Proof. intros Hk H. unfold dec. rewrite rev_length. apply dec_go_length; assumption. Qed.

Lemma dec_pad_facts k n : (0 < k)%nat -> (n < 10 ^ N.of_nat k)%N ->
  length (dec_pad k n) = k /\ digits (dec_pad k n) /\ vald (dec_pad k n) = n.
Proof.
  intros Hk H. pose proof (dec_length n k Hk H) as L. unfold dec_pad. split; [|split].
  - rewrite app_length, repeat_length. lia.
  - apply Forall_app. split; [|exact (dec_digits n)]. apply Forall_forall. intros c Hc.
    apply repeat_spec in Hc. subst c. reflexivity.
  - rewrite vald_app_zero. apply vald_dec.
Qed.

Lemma append_facts k n : (0 < k)%nat -> 0 <= n < 10 ^ Z.of_nat k ->
  length (append_int n k) = k /\ digits (append_int n k) /\ uint_go 0 (append_int n k) = Some n.
Proof.
  intros Hk H. unfold append_int. destruct (Z.ltb_spec n 0) as [L|_]; [lia|].
  destruct (dec_pad_facts k (Z.to_N n) Hk) as (L & D & V).
  { apply N2Z.inj_lt. rewrite N2Z.inj_pow, Z2N.id, nat_N_Z by lia. exact (proj2 H). }
  split; [exact L|]. split; [exact D|]. rewrite uint_digits, V by exact D. f_equal. lia.
Qed.

Lemma two_digits n : 0 <= n < 100 -> exists a b, append_int n 2 = [a; b] /\
  digits [a; b] /\ forall lo hi, lo <= n <= hi -> parse_uint [a; b] lo hi = Some n.
Proof.
  intros H. destruct (append_facts 2 n ltac:(lia) ltac:(change (10 ^ Z.of_nat 2) with 100; lia)) as (L & D & U).
  destruct (append_int n 2) as [|a [|b [|? ?]]]; try discriminate L. exists a, b. split; [reflexivity|]. split; [exact D|].
  intros lo hi B. unfold parse_uint. rewrite U. destruct (Z.ltb_spec n lo), (Z.ltb_spec hi n); try lia. reflexivity.
Qed.
Lemma four_digits n : 0 <= n <= 9999 -> exists a b c d, append_int n 4 = [a; b; c; d] /\
  digits [a; b; c; d] /\ parse_uint [a; b; c; d] 0 9999 = Some n.
Proof.
  intros H. destruct (append_facts 4 n ltac:(lia) ltac:(change (10 ^ Z.of_nat 4) with 10000; lia)) as (L & D & U).
  destruct (append_int n 4) as [|a [|b [|c [|d [|? ?]]]]]; try discriminate L.
  exists a, b, c, d. split; [reflexivity|]. split; [exact D|].
  unfold parse_uint. rewrite U. destruct (Z.ltb_spec n 0), (Z.ltb_spec 9999 n); try lia. reflexivity.
Qed.

(** ** The fraction *)
Lemma drop_zeros_spec l : exists k, l = repeat x30 k ++ drop_zeros l.
Proof.
  induction l as [|c l [k E]]; [exists 0%nat; reflexivity|].
  destruct (Byte.eqb c x30) eqn:B.
  - apply byte_eqb_eq in B. subst c. exists (S k). cbn [drop_zeros repeat app]. f_equal. exact E.
  - apply byte_eqb_neq in B. exists 0%nat. cbn [repeat app].
    replace (drop_zeros (c :: l)) with (c :: l); [reflexivity|]. destruct c; try reflexivity. contradiction.
Qed.
Lemma rev_repeat {A} (x : A) k : rev (repeat x k) = repeat x k.
Proof. induction k as [|k IH]; [reflexivity|]. cbn [repeat rev]. rewrite IH. symmetry. apply repeat_cons. Qed.

Lemma uint_zeros k : forall x l, uint_go 0 l = Some x -> digits l ->
  uint_go 0 (l ++ repeat x30 k) = Some (x * 10 ^ Z.of_nat k).
Proof.
  intros x l H D. rewrite uint_digits in *; [|exact D|].
  2:{ apply Forall_app. split; [exact D|]. apply Forall_forall. intros c Hc. apply repeat_spec in Hc. subst c. reflexivity. }
  injection H as <-. f_equal. unfold vald. rewrite fold_left_app.
  generalize (fold_left (fun a d => (10 * a + (bval d - 48))%N) l 0%N). intros n. revert n.
  induction k as [|k IH]; intros n; [cbn; lia|]. cbn [repeat fold_left]. rewrite IH.
  change (bval x30) with 48%N. rewrite Nat2Z.inj_succ, Z.pow_succ_r by lia. lia.
Qed.

Lemma span_app l r : digits l -> (match r with c :: _ => digit_char c = false | [] => True end) ->
  span_digits (l ++ r) = (l, r).
Proof.
  induction 1 as [|c l Hc Hl IH]; intros Hr.
  - destruct r as [|c r]; [reflexivity|]. cbn [app span_digits]. rewrite Hr. reflexivity.
  - cbn [app span_digits]. rewrite Hc, (IH Hr). reflexivity.
Qed.

Lemma nano_facts ns : 0 <= ns < second ->
  (ns = 0 /\ nano ns = []) \/
  exists ds k, nano ns = x2e :: ds /\ digits ds /\ ds <> [] /\ (length ds + k = 9)%nat /\ uint_go 0 (ds ++ repeat x30 k) = Some ns.
Proof.
  intros H. unfold nano.
  destruct (dec_pad_facts 9 (Z.to_N ns) ltac:(lia)) as (L & D & V).
  { change (10 ^ N.of_nat 9)%N with 1000000000%N. unfold second in H. lia. }
  destruct (drop_zeros_spec (rev (dec_pad 9 (Z.to_N ns)))) as [k E].
  set (z := drop_zeros _) in *.
  assert (E' : dec_pad 9 (Z.to_N ns) = rev z ++ repeat x30 k).
  { rewrite <- (rev_involutive (dec_pad 9 (Z.to_N ns))), E, rev_app_distr, rev_repeat. reflexivity. }
  assert (U : uint_go 0 (rev z ++ repeat x30 k) = Some ns).
  { rewrite <- E', uint_digits, V by exact D. f_equal. lia. }
  destruct z as [|c z'] eqn:Z.
  - left. split; [|reflexivity]. cbn [rev app] in U.
    pose proof (uint_zeros k 0 [] eq_refl (Forall_nil _)) as U0. cbn [app] in U0. rewrite U0 in U. injection U as <-. lia.
  - right. exists (rev (c :: z')), k. split; [reflexivity|]. split.
    + rewrite E' in D. apply Forall_app in D. exact (proj1 D).
    + split; [|split; [rewrite <- L, E', app_length, repeat_length; reflexivity|exact U]].
      intros N. apply (f_equal (@rev byte)) in N. rewrite rev_involutive in N. discriminate N.
Qed.

Lemma parse_nano_format ns r : 0 <= ns < second ->
  (match r with c :: _ => digit_char c = false /\ c <> x2e | [] => True end) ->
  parse_nano (nano ns ++ r) = (ns, r).
Proof.
  intros H Hr. destruct (nano_facts ns H) as [[-> ->]|(ds & k & -> & D & N & L & U)].
  - cbn [app]. destruct r as [|c r]; [reflexivity|]. destruct Hr as [_ Hr]. destruct c; try reflexivity. contradiction.
  - cbn [app parse_nano]. rewrite (span_app ds r D) by (destruct r as [|c r]; [exact I|apply Hr]).
    destruct ds as [|c ds]; [contradiction|]. rewrite firstn_all2 by lia.
    pose proof (uint_digits (c :: ds) D) as V. rewrite V. f_equal.
    rewrite (uint_zeros k _ _ V D) in U. injection U as <-. f_equal. f_equal. lia.
Qed.

Lemma parse_zone_format off : -1440 < off < 1440 -> parse_zone (zone_text off) = Some off /\
  exists c r, zone_text off = c :: r /\ digit_char c = false /\ c <> x2e.
Proof.
  intros H. unfold zone_text. destruct (Z.eqb_spec off 0) as [->|N].
  { split; [reflexivity|]. exists x5a, []. repeat split. discriminate. }
  destruct (two_digits (Z.abs off / 60)) as (a & b & -> & _ & P1); [Z.to_euclidean_division_equations; lia|].
  destruct (two_digits (Z.abs off mod 60)) as (c & d & -> & _ & P2); [Z.to_euclidean_division_equations; lia|].
  specialize (P1 0 23 ltac:(Z.to_euclidean_division_equations; lia)).
  specialize (P2 0 59 ltac:(Z.to_euclidean_division_equations; lia)).
  cbn [app]. split.
  - destruct (Z.ltb_spec off 0) as [L|L]; unfold parse_zone, zone_in; change (Byte.eqb x3a x3a) with true; cbv iota; rewrite P1, P2.
    + change (Byte.eqb x2d x2d) with true. cbv iota. f_equal. Z.to_euclidean_division_equations; lia.
    + change (Byte.eqb x2b x2d) with false. change (Byte.eqb x2b x2b) with true. cbv iota.
      f_equal. Z.to_euclidean_division_equations; lia.
  - destruct (Z.ltb_spec off 0); eexists _, _; split; try reflexivity; split; try reflexivity; discriminate.
Qed.

(** ** The date *)
Lemma days_since_start y : days_since y = year_start y.
Proof. unfold days_since, year_start. Z.to_euclidean_division_equations. lia. Qed.

Definition month_check (y : Z) (k : nat) : bool :=
  let m := Z.of_nat k in
  (days_in y m =? month_len y m)
  && (days_before (m - 1) + (if is_leap y && (3 <=? m) then 1 else 0) =? months_before y (Z.to_nat (m - 1))).
Lemma month_checks : forallb (month_check 2004) (seq 1 12) = true /\ forallb (month_check 2001) (seq 1 12) = true.
Proof. split; vm_compute; reflexivity. Qed.
Lemma month_facts y m : 1 <= m <= 12 -> days_in y m = month_len y m /\
  days_before (m - 1) + (if is_leap y && (3 <=? m) then 1 else 0) = months_before y (Z.to_nat (m - 1)).
Proof.
  intros H. set (y' := if is_leap y then 2004 else 2001).
  assert (El : is_leap y' = is_leap y) by (unfold y'; destruct (is_leap y); reflexivity).
  assert (C : month_check y' (Z.to_nat m) = true).
  { unfold y'. destruct month_checks as [A B].
    destruct (is_leap y); [apply (proj1 (forallb_forall _ _) A)|apply (proj1 (forallb_forall _ _) B)]; apply in_seq; lia. }
  unfold month_check in C. rewrite Z2Nat.id in C by lia. cbv zeta in C.
  rewrite (months_before_leap y y' _ (eq_sym El)).
  replace (month_len y m) with (month_len y' m) by (unfold month_len; rewrite El; reflexivity).
  replace (days_in y m) with (days_in y' m) by (unfold days_in; rewrite El; reflexivity).
  rewrite <- El. lia.
Qed.

Lemma make_date_of u : let '(y, m, d) := date u in let '(hh, mm, ss, ns) := clock_of u in
  make_date y m d hh mm ss ns = u.
Proof.
  pose proof (date_spec u) as H. destruct (date u) as [[y m] d]. destruct H as [[Hm Hd] E].
  unfold clock_of. cbv zeta. unfold make_date. rewrite days_since_start.
  destruct (month_facts y m Hm) as [_ M].
  replace (year_start y + days_before (m - 1) + (if is_leap y && (3 <=? m) then 1 else 0) + (d - 1)) with (day_number y m d)
    by (unfold day_number; lia).
  rewrite E. unfold day_of, unix, second. clear. Z.to_euclidean_division_equations. lia.
Qed.

Lemma clock_bounds u : let '(hh, mm, ss, ns) := clock_of u in
  0 <= hh <= 23 /\ 0 <= mm <= 59 /\ 0 <= ss <= 59 /\ 0 <= ns < second.
Proof. unfold clock_of, unix, second. cbv zeta. Z.to_euclidean_division_equations. lia. Qed.

Lemma parse_format off t s : marshal_time off t = Some s -> parse_rfc3339 s = Some t.
Proof.
  unfold marshal_time, rfc3339. pose proof (make_date_of (t + off * minute)) as M.
  pose proof (date_spec (t + off * minute)) as V. pose proof (clock_bounds (t + off * minute)) as B.
  destruct (date (t + off * minute)) as [[y m] d]. destruct (clock_of (t + off * minute)) as [[[hh mm] ss] ns].
  destruct V as [[Hm Hd] _]. destruct B as (B1 & B2 & B3 & B4).
  destruct ((0 <=? y) && (y <=? 9999) && (Z.abs off / 60 <? 24)) eqn:C; [|discriminate].
  assert (Hy : 0 <= y <= 9999) by lia.
  assert (Ho : -1440 < off < 1440) by (clear -C; Z.to_euclidean_division_equations; lia).
  clear C. intros K. injection K as <-.
  pose proof (month_len_pos y m) as ML.
  destruct (four_digits y Hy) as (y1 & y2 & y3 & y4 & -> & _ & Py).
  destruct (two_digits m ltac:(lia)) as (m1 & m2 & -> & _ & Pm). specialize (Pm 1 12 Hm).
  destruct (two_digits d ltac:(lia)) as (d1 & d2 & -> & _ & Pd).
  destruct (month_facts y m Hm) as [D _]. specialize (Pd 1 (days_in y m) ltac:(lia)).
  destruct (two_digits hh ltac:(lia)) as (h1 & h2 & -> & _ & Ph). specialize (Ph 0 23 B1).
  destruct (two_digits mm ltac:(lia)) as (i1 & i2 & -> & _ & Pi). specialize (Pi 0 59 B2).
  destruct (two_digits ss ltac:(lia)) as (s1 & s2 & -> & _ & Ps). specialize (Ps 0 59 B3).
  destruct (parse_zone_format off Ho) as (Pz & c & r & Ez & Zc).
  cbn [app]. unfold parse_rfc3339. rewrite Py, Pm, Pd, Ph, Pi, Ps.
  rewrite parse_nano_format by (try exact B4; rewrite Ez; exact Zc). rewrite Pz, M. f_equal. lia.
Qed.


(** The characters of the text: digits and - + : . T Z *)
Definition time_char (c : byte) : bool :=
  digit_char c || Byte.eqb c x2d || Byte.eqb c x2b || Byte.eqb c x3a || Byte.eqb c x2e || Byte.eqb c x54 || Byte.eqb c x5a.
Lemma digits_time l : digits l -> Forall (fun c => time_char c = true) l.
Proof. intros H. eapply Forall_impl; [|exact H]. intros c E. unfold time_char. rewrite E. reflexivity. Qed.
Lemma append_time n k : Forall (fun c => time_char c = true) (append_int n k).
Proof.
  assert (A : forall x, Forall (fun c => time_char c = true) (dec_pad k x)).
  { intros x. unfold dec_pad. apply Forall_app. split.
    - apply Forall_forall. intros c Hc. apply repeat_spec in Hc. subst c. reflexivity.
    - apply digits_time. exact (dec_digits x). }
  unfold append_int. destruct (n <? 0); [constructor; [reflexivity|]|]; apply A.
Qed.
Lemma nano_time ns : Forall (fun c => time_char c = true) (nano ns).
Proof.
  unfold nano. destruct (drop_zeros_spec (rev (dec_pad 9 (Z.to_N ns)))) as [k E].
  assert (D : Forall (fun c => time_char c = true) (rev (dec_pad 9 (Z.to_N ns)))).
  { apply Forall_rev. unfold dec_pad. apply Forall_app. split.
    - apply Forall_forall. intros c Hc. apply repeat_spec in Hc. subst c. reflexivity.
    - apply digits_time. exact (dec_digits _). }
  rewrite E in D. apply Forall_app in D. destruct D as [_ D].
  destruct (drop_zeros _) as [|c z]; constructor; [reflexivity|]. apply Forall_rev. exact D.
Qed.
Lemma rfc3339_chars off t : Forall (fun c => time_char c = true) (rfc3339 off t).
Proof.
  unfold rfc3339. destruct (date (t + off * minute)) as [[y m] d]. destruct (clock_of (t + off * minute)) as [[[hh mm] ss] ns].
  repeat (apply Forall_app; split); try apply append_time; try apply nano_time; try (constructor; [reflexivity|constructor]).
  unfold zone_text. destruct (off =? 0); [constructor; [reflexivity|constructor]|].
  constructor; [destruct (off <? 0); reflexivity|]. repeat (apply Forall_app; split); try apply append_time.
  constructor; [reflexivity|constructor].
Qed.
Lemma marshal_time_chars off t s : marshal_time off t = Some s -> Forall (fun c => time_char c = true) s.
Proof.
  unfold marshal_time. destruct (date (t + off * minute)) as [[y m] d].
  destruct (_ && _ && _); [|discriminate]. intros K. injection K as <-. apply rfc3339_chars.
Qed.

Example rfc_ex : rfc3339 120 1700000000120000000 = str "2023-11-15T00:13:20.12+02:00". Proof. vm_compute. reflexivity. Qed.
Example rfc_ex2 : rfc3339 0 zero_time = str "0001-01-01T00:00:00Z". Proof. vm_compute. reflexivity. Qed.
