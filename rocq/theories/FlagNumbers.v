(** The texts of numbers, truth values, methods and lists that flags accept. *)
From Coq Require Import Strings.String List NArith ZArith Bool Lia.
From Coq Require Import ZifyBool ZifyN.
From Verif Require Import GoBase GoBaseFacts NetIP SpecConfig Flags SpecFlags.
Import ListNotations.
Local Open Scope list_scope.
Local Open Scope N_scope.

Ltac all_bytes c := destruct c; vm_compute; intuition (try discriminate; auto).

Lemma digit_of_hex c d : hex_digit_value c d -> digit_of c = Some d.
Proof.
  unfold hex_digit_value, digit_of, is_dig. intros H.
  destruct c; cbv in H |- *;
  destruct H as [[[A B] ->]|[[[A B] ->]|[[A B] ->]]]; first [reflexivity | exfalso; apply A; reflexivity | exfalso; apply B; reflexivity].
Qed.
Lemma hex_of_digit c d : digit_of c = Some d -> d < 16 -> hex_digit_value c d.
Proof.
  unfold hex_digit_value, digit_of, is_dig. intros H L.
  destruct c; cbv in H; try discriminate H; injection H as <-; try (exfalso; cbv in L; discriminate L);
  cbv; first [left; split; [split; discriminate | reflexivity] | right; left; split; [split; discriminate | reflexivity]
             | right; right; split; [split; discriminate | reflexivity]].
Qed.
Lemma under_no_digit : digit_of x5f = None. Proof. reflexivity. Qed.
Lemma digit_low c d : digit_of c = Some d -> d < 10 -> is_dig c = true.
Proof. intros H L. destruct c; cbv in H |- *; try reflexivity; try discriminate H; injection H as <-; cbv in L; discriminate L. Qed.
Definition hexish (c : byte) : bool := let l := N.lor (bval c) 32 in (97 <=? l) && (l <=? 102).
Lemma digit_16 c d : digit_of c = Some d -> d < 16 -> is_dig c || hexish c = true.
Proof. intros H L. destruct c; cbv in H |- *; try reflexivity; try discriminate H; injection H as <-; cbv in L; discriminate L. Qed.
Lemma not_under c d : digit_of c = Some d -> Byte.eqb c x5f = false.
Proof. intros H. destruct c; cbv in H |- *; try reflexivity; discriminate H. Qed.

Lemma continued_le base n s m : 1 < base -> continued base n s m -> n <= m.
Proof. intros B H. induction H; [lia| |]; nia. Qed.
Definition has_under (s : bytes) : bool := existsb (Byte.eqb x5f) s.
Lemma under_eqb c : Byte.eqb x5f c = Byte.eqb c x5f.
Proof. destruct c; reflexivity. Qed.
Lemma eqb_under c : Byte.eqb c x5f = true -> c = x5f.
Proof. destruct c; cbv; (reflexivity || discriminate). Qed.

Lemma loop_runs base n s m : 1 < base -> continued base n s m -> forall us,
  (m <= max64 -> uint_loop base n us s = inr (m, us || has_under s)) /\ (max64 < m -> n <= max64 -> uint_loop base n us s = inl NRange).
Proof.
  intros B H. induction H as [n|n c d r m Hd Hb Hc IH|n c d r m Hd Hb Hc IH]; intros us.
  - split; [intros L; cbn; rewrite orb_false_r; reflexivity | lia].
  - apply digit_of_hex in Hd. pose proof (continued_le _ _ _ _ B Hc) as L1. cbn [uint_loop has_under existsb].
    rewrite (not_under c d Hd), Hd, under_eqb, (not_under c d Hd). cbn [orb].
    replace (base <=? d) with false by lia. replace (n * base + d) with (base * n + d) by lia.
    destruct (max64 <? base * n + d) eqn:E.
    + split; [lia | reflexivity].
    + destruct (IH us) as (I1 & I2). split; [exact I1 | intros L2 L3; apply I2; lia].
  - apply digit_of_hex in Hd. pose proof (continued_le _ _ _ _ B Hc) as L1. cbn [uint_loop has_under existsb].
    replace (Byte.eqb x5f x5f) with true by reflexivity.
    rewrite (not_under c d Hd), Hd. cbn [orb].
    replace (base <=? d) with false by lia. replace (n * base + d) with (base * n + d) by lia.
    destruct (max64 <? base * n + d) eqn:E.
    + split; [lia | reflexivity].
    + destruct (IH true) as (I1 & I2). split; [rewrite orb_true_r; exact I1 | intros L2 L3; apply I2; lia].
Qed.
(** [hex]: the automaton counts the digits of this base *)
Definition counts (hex : bool) (base : N) : Prop := base <= 10 \/ hex = true /\ base <= 16.
Lemma counted hex base c d : counts hex base -> digit_of c = Some d -> d < base -> is_dig c || hex && hexish c = true.
Proof.
  intros [H|(-> & H)] Hd L; [rewrite (digit_low c d Hd ltac:(lia)); reflexivity | apply (digit_16 c d Hd); lia].
Qed.
Lemma under_loop_digit hex i c r : is_dig c || hex && hexish c = true -> under_loop hex i (c :: r) = under_loop hex UDigit r.
Proof. intros H. cbn [under_loop]. unfold hexish in H. cbn zeta in H |- *. rewrite H. reflexivity. Qed.
Lemma under_loop_under hex i r : under_loop hex i (x5f :: r) = match i with UDigit => under_loop hex UUnder r | _ => false end.
Proof. destruct hex; reflexivity. Qed.
Lemma continued_ok hex base n s m : counts hex base -> continued base n s m -> under_loop hex UDigit s = true.
Proof.
  intros C H. induction H as [n|n c d r m Hd Hb Hc IH|n c d r m Hd Hb Hc IH]; [reflexivity| |]; apply digit_of_hex in Hd.
  - rewrite under_loop_digit by exact (counted _ _ _ _ C Hd Hb). exact IH.
  - rewrite under_loop_under, under_loop_digit by exact (counted _ _ _ _ C Hd Hb). exact IH.
Qed.
Lemma loop_sound hex base s : counts hex base -> base <= 16 -> forall n us m us', uint_loop base n us s = inr (m, us') ->
  (n <= max64 -> m <= max64) /\ us' = us || has_under s /\
  (under_loop hex UDigit s = true -> continued base n s m) /\
  (under_loop hex UUnder s = true -> exists c d r, s = c :: r /\ hex_digit_value c d /\ d < base /\ continued base (base * n + d) r m) /\
  (has_under s = false -> continued base n s m).
Proof.
  intros C B'. induction s as [|c r IH]; intros n us m us' H.
  - cbn in H. injection H as <- <-. rewrite orb_false_r. repeat split; [auto | constructor | discriminate | constructor].
  - cbn [uint_loop] in H. destruct (Byte.eqb c x5f) eqn:E.
    + apply eqb_under in E. subst c. destruct (IH n true m us' H) as (I1 & I2 & I3 & I4 & I5).
      split; [exact I1|].
      cbn [has_under existsb]. replace (Byte.eqb x5f x5f) with true by reflexivity. cbn [orb]. rewrite orb_true_r.
      split; [exact I2|]. rewrite !under_loop_under. split; [|split; [discriminate | discriminate]].
      intros U. destruct (I4 U) as (c & d & r' & -> & Hd & Hb & Hc). exact (co_under _ _ _ _ _ _ Hd Hb Hc).
    + destruct (digit_of c) as [d|] eqn:Hd; [|discriminate H]. destruct (base <=? d) eqn:Eb; [discriminate H|].
      destruct (max64 <? n * base + d) eqn:Em; [discriminate H|]. replace (n * base + d) with (base * n + d) in * by lia.
      destruct (IH _ us m us' H) as (I1 & I2 & I3 & I4 & I5).
      assert (Hh : hex_digit_value c d) by (apply hex_of_digit; [exact Hd | lia]). assert (Hl : d < base) by lia.
      assert (Hk := counted hex base c d C Hd Hl).
      split; [intros _; apply I1; lia|]. cbn [has_under existsb]. rewrite under_eqb, E. cbn [orb]. split; [exact I2|].
      rewrite !under_loop_digit by exact Hk. split; [intros U; exact (co_digit _ _ _ _ _ _ Hh Hl (I3 U))|].
      split; [intros U; exists c, d, r; auto|]. intros U. exact (co_digit _ _ _ _ _ _ Hh Hl (I5 U)).
Qed.
Lemma loop_iff hex base s m : counts hex base -> 1 < base -> base <= 16 ->
  ((exists us, uint_loop base 0 false s = inr (m, us) /\ (us = true -> under_loop hex UDigit s = true)) <->
   continued base 0 s m /\ m <= max64).
Proof.
  intros C B B'. split.
  - intros (us & H & U). destruct (loop_sound hex base s C B' _ _ _ _ H) as (I1 & I2 & I3 & _ & I5). cbn [orb] in I2. subst us.
    split; [|apply I1; lia]. destruct (has_under s); [apply I3, U; reflexivity | apply I5; reflexivity].
  - intros (H & L). exists (has_under s). split; [exact (proj1 (loop_runs _ _ _ _ B H false) L)|]. intros _.
    exact (continued_ok _ _ _ _ _ C H).
Qed.

Definition prefixes : list (byte * N) := [(x62, 2); (x42, 2); (x6f, 8); (x4f, 8); (x78, 16); (x58, 16)].
Lemma prefix_b p : (N.lor (bval p) 32 =? 98) = true -> In (p, 2) prefixes.
Proof. destruct p; cbv; try discriminate; tauto. Qed.
Lemma prefix_o p : (N.lor (bval p) 32 =? 111) = true -> In (p, 8) prefixes.
Proof. destruct p; cbv; try discriminate; tauto. Qed.
Lemma prefix_x p : (N.lor (bval p) 32 =? 120) = true -> In (p, 16) prefixes.
Proof. destruct p; cbv; try discriminate; tauto. Qed.
Lemma prefix_inv p base : In (p, base) prefixes ->
  (base = 2 /\ (N.lor (bval p) 32 =? 98) = true \/ base = 8 /\ (N.lor (bval p) 32 =? 98) = false /\ (N.lor (bval p) 32 =? 111) = true \/
   base = 16 /\ (N.lor (bval p) 32 =? 98) = false /\ (N.lor (bval p) 32 =? 111) = false /\ (N.lor (bval p) 32 =? 120) = true) /\
  p <> x5f /\ forall d, hex_digit_value p d -> 8 <= d.
Proof.
  intros H. cbn in H. decompose [or] H; try contradiction;
    match goal with E : (_, _) = (_, _) |- _ => injection E as <- <- end; (split; [cbv; auto 10 | split; [discriminate|]]);
    intros d Hd; apply digit_of_hex in Hd; cbv in Hd; try discriminate Hd; injection Hd as <-; discriminate.
Qed.
Lemma eqb_zero c : Byte.eqb c x30 = true -> c = x30.
Proof. destruct c; cbv; (reflexivity || discriminate). Qed.
Lemma octal_not_prefix p t base m : In (p, base) prefixes -> continued 8 0 (p :: t) m -> False.
Proof.
  intros H C. destruct (prefix_inv p base H) as (_ & U & D). inversion C; subst; [|congruence].
  match goal with X : hex_digit_value p _ |- _ => apply D in X end. lia.
Qed.
(** What ParseUint does with digits of this base *)
Definition judged base s ds : num_err + N :=
  match uint_loop base 0 false ds with
  | inl e => inl e
  | inr (n, us) => if us && negb (underscore_ok s) then inl NSyntax else inr n
  end.
Lemma judged_iff hex base s ds m : counts hex base -> 1 < base -> base <= 16 ->
  (has_under ds = true -> underscore_ok s = under_loop hex UDigit ds) ->
  (judged base s ds = inr m <-> continued base 0 ds m /\ m <= max64) /\
  (continued base 0 ds m -> max64 < m -> judged base s ds = inl NRange).
Proof.
  intros C B B' U. split.
  - rewrite <- (loop_iff hex base ds m C B B'). unfold judged. destruct (uint_loop base 0 false ds) as [e|[n us]] eqn:E.
    + split; [discriminate | intros (us & H & _); discriminate H].
    + pose proof (proj1 (proj2 (loop_sound hex base ds C B' _ _ _ _ E))) as Us. cbn [orb] in Us. destruct us; cbn [andb].
      * rewrite U by congruence. destruct (under_loop hex UDigit ds) eqn:Eu; cbn [negb].
        -- split; [intros H; injection H as <-; exists true; auto | intros (us & H & _); injection H as <- _; reflexivity].
        -- split; [discriminate | intros (us & H & K); injection H as _ <-; discriminate (K eq_refl)].
      * split; [intros H; injection H as <-; exists false; split; [reflexivity | discriminate] | intros (us & H & _); injection H as <- _; reflexivity].
  - intros H L. unfold judged. rewrite (proj2 (loop_runs _ _ _ _ B H false)); [reflexivity | exact L | vm_compute; discriminate].
Qed.
Lemma uint_iff s m : (parse_uint64 s = inr m <-> literal s m /\ m <= max64) /\ (literal s m -> max64 < m -> parse_uint64 s = inl NRange).
Proof.
  destruct s as [|z r].
  { split; [|intros H; inversion H]. split; [discriminate | intros (H & _); inversion H]. }
  destruct (Byte.eqb z x30) eqn:Ez.
  - apply eqb_zero in Ez. subst z.
    assert (Oct : (forall p t base, r = p :: t -> In (p, base) prefixes -> t = []) ->
        parse_uint64 (x30 :: r) = judged 8 (x30 :: r) r /\ (literal (x30 :: r) m <-> continued 8 0 r m) /\
        (has_under r = true -> continued 8 0 r m \/ True -> (forall p t base, r = p :: t -> ~ In (p, base) prefixes) -> underscore_ok (x30 :: r) = under_loop false UDigit r)).
    { intros N. split; [|split].
      - unfold parse_uint64, judged, base_of. cbn [Byte.eqb]. replace (Byte.eqb x30 x30) with true by reflexivity.
        destruct r as [|p [|q t]]; try reflexivity. cbn zeta.
        destruct (N.lor (bval p) 32 =? 98) eqn:E1; [discriminate (N p _ 2 eq_refl (prefix_b p E1))|].
        destruct (N.lor (bval p) 32 =? 111) eqn:E2; [discriminate (N p _ 8 eq_refl (prefix_o p E2))|].
        destruct (N.lor (bval p) 32 =? 120) eqn:E3; [discriminate (N p _ 16 eq_refl (prefix_x p E3))|]. reflexivity.
      - split; [|apply li_octal]. intros H. inversion H; subst; [congruence | assumption|].
        match goal with X : In _ _, Y : _ <> [] |- _ => exfalso; apply Y; exact (N _ _ _ eq_refl X) end.
      - intros _ _ K. unfold underscore_ok. destruct r as [|p t]; [reflexivity|]. replace (Byte.eqb x30 x30) with true by reflexivity.
        cbn zeta. cbn [andb]. destruct (N.lor (bval p) 32 =? 98) eqn:E1; [destruct (K p t 2 eq_refl (prefix_b p E1))|].
        destruct (N.lor (bval p) 32 =? 111) eqn:E2; [destruct (K p t 8 eq_refl (prefix_o p E2))|].
        destruct (N.lor (bval p) 32 =? 120) eqn:E3; [destruct (K p t 16 eq_refl (prefix_x p E3))|]. cbn [orb].
        apply under_loop_digit. reflexivity. }
    assert (P : (exists p t base, r = p :: t /\ In (p, base) prefixes) \/ forall p t base, r = p :: t -> ~ In (p, base) prefixes).
    { destruct r as [|p t]; [right; discriminate|].
      destruct (N.lor (bval p) 32 =? 98) eqn:E1; [left; exists p, t, 2; split; [reflexivity | exact (prefix_b p E1)]|].
      destruct (N.lor (bval p) 32 =? 111) eqn:E2; [left; exists p, t, 8; split; [reflexivity | exact (prefix_o p E2)]|].
      destruct (N.lor (bval p) 32 =? 120) eqn:E3; [left; exists p, t, 16; split; [reflexivity | exact (prefix_x p E3)]|].
      right. intros p' t' base H I. injection H as <- <-. destruct (prefix_inv p base I) as ([(_ & H)|[(_ & _ & H)|(_ & _ & _ & H)]] & _); congruence. }
    destruct P as [(p & t & base & -> & I)|P].
    + destruct t as [|q t].
      * destruct Oct as (O1 & O2 & _); [intros p' t' b' H _; injection H as _ <-; reflexivity|]. rewrite O1, O2.
        assert (Bad : judged 8 [x30; p] [p] = inl NSyntax).
        { cbn in I. decompose [or] I; try contradiction; match goal with E : (_, _) = (_, _) |- _ => injection E as <- <- end; reflexivity. }
        rewrite Bad. split; [split; [discriminate|] |]; [intros (H & _) | intros H _]; destruct (octal_not_prefix _ _ _ _ I H).
      * assert (E : parse_uint64 (x30 :: p :: q :: t) = judged base (x30 :: p :: q :: t) (q :: t) /\
                    underscore_ok (x30 :: p :: q :: t) = under_loop (base =? 16) UDigit (q :: t) /\ 1 < base /\ base <= 16 /\ counts (base =? 16) base).
        { unfold counts. cbn in I. decompose [or] I; try contradiction; match goal with E : (_, _) = (_, _) |- _ => injection E as <- <- end;
            (split; [reflexivity | split; [reflexivity | split; [reflexivity | split; [discriminate|]]]]);
            first [left; discriminate | right; split; [reflexivity | discriminate]]. }
        destruct E as (E & Eu & B1 & B2 & C). rewrite E.
        destruct (judged_iff (base =? 16) base (x30 :: p :: q :: t) (q :: t) m C B1 B2 (fun _ => Eu)) as (J1 & J2).
        assert (L : literal (x30 :: p :: q :: t) m <-> continued base 0 (q :: t) m).
        { split; [|apply li_prefix; [exact I | discriminate]]. intros H. inversion H; subst; [congruence | |].
          - match goal with X : continued 8 _ _ _ |- _ => destruct (octal_not_prefix _ _ _ _ I X) end.
          - match goal with X : In (p, ?b) _ |- _ => assert (b = base) as -> by
              (apply prefix_inv in I, X; destruct I as ([I|[I|I]] & _), X as ([X|[X|X]] & _); intuition congruence) end. assumption. }
        rewrite L. exact (conj J1 J2).
    + destruct Oct as (O1 & O2 & O3); [intros p t base H I; destruct (P p t base H I)|]. rewrite O1, O2.
      exact (judged_iff false 8 (x30 :: r) r m ltac:(left; discriminate) ltac:(reflexivity) ltac:(discriminate) (fun h => O3 h (or_intror I) P)).
  - assert (E : parse_uint64 (z :: r) = judged 10 (z :: r) (z :: r)) by (unfold parse_uint64, judged, base_of; rewrite Ez; reflexivity).
    rewrite E. assert (U : underscore_ok (z :: r) = under_loop false UBegin (z :: r)) by (unfold underscore_ok; rewrite Ez; destruct r; reflexivity).
    destruct (Byte.eqb z x5f) eqn:Eu.
    + apply eqb_under in Eu. subst z. assert (J : forall x, judged 10 (x5f :: r) (x5f :: r) <> inr x).
      { intros x. unfold judged. destruct (uint_loop 10 0 false (x5f :: r)) as [e|[n us]] eqn:El; [discriminate|].
        rewrite U, under_loop_under. pose proof (proj1 (proj2 (loop_sound false 10 _ ltac:(left; discriminate) ltac:(discriminate) _ _ _ _ El))) as Us.
        cbn in Us. subst us. discriminate. }
      assert (L : ~ literal (x5f :: r) m) by (intros H; inversion H; subst; match goal with X : decimal_digit _ |- _ => destruct X as (_ & X); apply X; reflexivity end).
      split; [split; [intros H; destruct (J _ H) | tauto] | tauto].
    + assert (L : literal (z :: r) m <-> continued 10 0 (z :: r) m).
      { split.
        - intros H. inversion H; subst; try (cbv in Ez; discriminate Ez).
          match goal with X : decimal_digit z |- _ => rename X into D end. unfold decimal_digit in D.
          apply (co_digit 10 0 z (bval z - 48)); [left; auto | lia|]. replace (10 * 0 + (bval z - 48)) with (bval z - 48) by lia. assumption.
        - intros H. inversion H; subst; [|cbv in Eu; discriminate Eu].
          match goal with X : hex_digit_value z d |- _ => rename X into D end.
          assert (K : decimal_digit z /\ d = bval z - 48) by (unfold hex_digit_value in D; unfold decimal_digit; lia). destruct K as (K & ->).
          apply li_decimal with (d := bval z - 48); [exact K | intros ->; discriminate Ez | reflexivity|].
          match goal with X : continued 10 _ r m |- _ => replace (10 * 0 + (bval z - 48)) with (bval z - 48) in X by lia; exact X end. }
      rewrite L. apply (judged_iff false); [left; discriminate | reflexivity | discriminate|]. intros _. rewrite U. cbn [under_loop].
      destruct (is_dig z || _) eqn:Ed; [reflexivity|]. rewrite Eu. reflexivity.
Qed.

(** The rest of ParseInt, after the sign *)
Definition int_body (neg : bool) (t : bytes) : Z * bool :=
  let bounded un :=
    if negb neg && (9223372036854775808 <=? un) then (9223372036854775807%Z, false)
    else if neg && (9223372036854775808 <? un) then ((-9223372036854775808)%Z, false)
    else ((if neg then - Z.of_N un else Z.of_N un)%Z, true) in
  match parse_uint64 t with
  | inl NSyntax => (0%Z, false)
  | inl NRange => bounded max64
  | inr un => bounded un
  end.
Definition signed (neg : bool) (m : N) : Z := if neg then (- Z.of_N m)%Z else Z.of_N m.
Definition in64 (z : Z) : Prop := (-9223372036854775808 <= z <= 9223372036854775807)%Z.
Lemma int_body_ok neg t z : int_body neg t = (z, true) <-> (exists m, literal t m /\ z = signed neg m) /\ in64 z.
Proof.
  unfold int_body, in64, signed. destruct (parse_uint64 t) as [[]|n] eqn:E.
  - split; [discriminate|]. intros ((m & L & ->) & R). destruct (uint_iff t m) as (U & V).
    destruct (N.le_gt_cases m max64) as [G|G]; [rewrite (proj2 U (conj L G)) in E | rewrite (V L G) in E]; discriminate E.
  - split; [destruct neg; cbn; discriminate|]. intros ((m & L & ->) & R). destruct (uint_iff t m) as (U & V).
    destruct (N.le_gt_cases m max64) as [G|G]; [rewrite (proj2 U (conj L G)) in E; discriminate E|]. unfold max64 in G. destruct neg; lia.
  - destruct (uint_iff t n) as (U & _). apply U in E as E'. destruct E' as (L & G).
    assert (F : forall m, literal t m -> m = n).
    { intros m Lm. destruct (uint_iff t m) as (Um & Vm). destruct (N.le_gt_cases m max64) as [Gm|Gm].
      - pose proof (proj2 Um (conj Lm Gm)). congruence.
      - rewrite (Vm Lm Gm) in E. discriminate E. }
    split.
    + destruct neg; cbn [negb andb].
      * destruct (9223372036854775808 <? n) eqn:En; [discriminate|]. intros H. injection H as <-. split; [exists n; auto | lia].
      * destruct (9223372036854775808 <=? n) eqn:En; [discriminate|]. intros H. injection H as <-. split; [exists n; auto | lia].
    + intros ((m & Lm & ->) & R). rewrite (F m Lm) in *. destruct neg; cbn [negb andb].
      * destruct (9223372036854775808 <? n) eqn:En; [lia | reflexivity].
      * destruct (9223372036854775808 <=? n) eqn:En; [lia | reflexivity].
Qed.
Lemma int_body_bad neg t z : int_body neg t = (z, false) ->
  (z = 9223372036854775807 \/ z = -9223372036854775808 \/ z = 0)%Z /\
  forall m, literal t m -> (signed neg m > 9223372036854775807 /\ z = 9223372036854775807 \/ signed neg m < -9223372036854775808 /\ z = -9223372036854775808)%Z.
Proof.
  unfold int_body, signed. destruct (parse_uint64 t) as [[]|n] eqn:E.
  - intros H. injection H as <-. split; [auto|]. intros m L. exfalso. destruct (uint_iff t m) as (U & V).
    destruct (N.le_gt_cases m max64) as [G|G]; [rewrite (proj2 U (conj L G)) in E | rewrite (V L G) in E]; discriminate E.
  - assert (F : forall m, literal t m -> max64 < m).
    { intros m L. destruct (uint_iff t m) as (U & _). destruct (N.le_gt_cases m max64) as [G|G]; [|exact G].
      rewrite (proj2 U (conj L G)) in E. discriminate E. }
    unfold max64 in F. destruct neg; cbn; intros H; injection H as <-; (split; [auto|]); intros m L; apply F in L; lia.
  - destruct (uint_iff t n) as (U & _). apply U in E as E'. destruct E' as (L & G).
    assert (F : forall m, literal t m -> m = n).
    { intros m Lm. destruct (uint_iff t m) as (Um & Vm). destruct (N.le_gt_cases m max64) as [Gm|Gm].
      - pose proof (proj2 Um (conj Lm Gm)). congruence.
      - rewrite (Vm Lm Gm) in E. discriminate E. }
    destruct neg; cbn [negb andb].
    + destruct (9223372036854775808 <? n) eqn:En; [|discriminate]. intros H. injection H as <-. split; [auto|]. intros m Lm. rewrite (F m Lm). lia.
    + destruct (9223372036854775808 <=? n) eqn:En; [|discriminate]. intros H. injection H as <-. split; [auto|]. intros m Lm. rewrite (F m Lm). lia.
Qed.
Lemma literal_first u m : literal u m -> exists c r, u = c :: r /\ c <> x2b /\ c <> x2d.
Proof.
  intros H. inversion H; subst; [|eexists _, _; split; [reflexivity | split; discriminate] ..].
  eexists _, _. split; [reflexivity|]. match goal with X : decimal_digit _ |- _ => destruct X as (Q & _) end.
  split; intros ->; apply Q; reflexivity.
Qed.
Lemma parse_int64_body t : t <> [] -> exists neg u, parse_int64 t = int_body neg u /\
  forall z, integer_text t z <-> exists m, literal u m /\ z = signed neg m.
Proof.
  intros N. destruct t as [|c r]; [congruence|]. unfold parse_int64.
  destruct (Byte.eqb c x2b) eqn:E1; [|destruct (Byte.eqb c x2d) eqn:E2].
  - assert (c = x2b) as -> by (destruct c; cbv in E1; (reflexivity || discriminate E1)). exists false, r. split; [reflexivity|]. intros z. split.
    + intros (sg & u & m & E & L & H). destruct (literal_first u m L) as (a & b & -> & A1 & A2).
      destruct H as [([->| ->] & ->)|(-> & ->)]; cbn in E; [congruence | injection E as ->; exists m; auto | discriminate E].
    + intros (m & L & ->). exists [x2b], r, m. auto 10.
  - assert (c = x2d) as -> by (destruct c; cbv in E2; (reflexivity || discriminate E2)). exists true, r. split; [reflexivity|]. intros z. split.
    + intros (sg & u & m & E & L & H). destruct (literal_first u m L) as (a & b & -> & A1 & A2).
      destruct H as [([->| ->] & ->)|(-> & ->)]; cbn in E; [congruence | discriminate E | injection E as ->; exists m; auto].
    + intros (m & L & ->). exists [x2d], r, m. auto 10.
  - exists false, (c :: r). split; [reflexivity|]. intros z. split.
    + intros (sg & u & m & E & L & H).
      destruct H as [([->| ->] & ->)|(-> & ->)]; cbn in E; [subst u; exists m; auto | |]; injection E as -> _; [discriminate E1 | discriminate E2].
    + intros (m & L & ->). exists [], (c :: r), m. auto 10.
Qed.
Lemma no_integer z : ~ integer_text [] z.
Proof.
  intros (sg & u & m & E & L & _). destruct (literal_first u m L) as (c & r & -> & _). destruct sg; discriminate E.
Qed.
Lemma int_ok t z : parse_int64 t = (z, true) <-> int64_text t z.
Proof.
  unfold int64_text. destruct t as [|c r]; [split; [discriminate | intros (H & _); destruct (no_integer z H)]|].
  destruct (parse_int64_body (c :: r)) as (neg & u & E & H); [discriminate|]. rewrite E, H. apply int_body_ok.
Qed.
Lemma int_bad t z : parse_int64 t = (z, false) ->
  (z = 9223372036854775807 \/ z = -9223372036854775808 \/ z = 0)%Z /\
  forall y, integer_text t y -> (y > 9223372036854775807 /\ z = 9223372036854775807 \/ y < -9223372036854775808 /\ z = -9223372036854775808)%Z.
Proof.
  destruct t as [|c r]; [intros H; injection H as <-; split; [auto | intros y Hy; destruct (no_integer y Hy)]|].
  destruct (parse_int64_body (c :: r)) as (neg & u & E & H); [discriminate|]. rewrite E. intros B.
  destruct (int_body_bad neg u z B) as (B1 & B2). split; [exact B1|]. intros y Hy. apply H in Hy. destruct Hy as (m & L & ->). exact (B2 m L).
Qed.

Lemma bool_ok t b : parse_bool t = (b, true) <-> bool_text t b.
Proof.
  unfold parse_bool, bool_text. set (ts := [str "1"; _; _; _; _; _]). set (fs := [str "0"; _; _; _; _; _]).
  assert (A : forall l, existsb (bytes_eqb t) l = true <-> In t l).
  { intros l. rewrite existsb_exists. split; [intros (x & H & E); apply bytes_eqb_eq in E; congruence | intros H; exists t; split; [exact H | apply bytes_eqb_refl]]. }
  destruct (existsb (bytes_eqb t) ts) eqn:E1; [|destruct (existsb (bytes_eqb t) fs) eqn:E2].
  - apply A in E1. split; [intros H; injection H as <-|]; cbn in E1; decompose [or] E1; try contradiction; subst t.
    1-6: cbn; auto 20.
    all: intros H; cbn in H; decompose [or] H; try contradiction; match goal with X : (_, _) = (_, _) |- _ => inversion X end; reflexivity.
  - apply A in E2. split; [intros H; injection H as <-|]; cbn in E2; decompose [or] E2; try contradiction; subst t.
    1-6: cbn; auto 20.
    all: intros H; cbn in H; decompose [or] H; try contradiction; match goal with X : (_, _) = (_, _) |- _ => inversion X end; reflexivity.
  - split; [discriminate|]. intros H. cbn in H. decompose [or] H; try contradiction; match goal with X : (_, _) = (_, _) |- _ => injection X as <- <- end;
      first [discriminate E1 | discriminate E2].
Qed.
Lemma bool_bad t b : parse_bool t = (b, false) -> b = false /\ forall b', ~ bool_text t b'.
Proof.
  intros H. split.
  - revert H. unfold parse_bool. destruct (existsb _ _); [discriminate|]. destruct (existsb _ _); [discriminate|]. intros H. injection H as <-. reflexivity.
  - intros b' K. apply bool_ok in K. congruence.
Qed.

Lemma split_nonempty s : split_comma s <> [].
Proof. destruct s as [|c r]; cbn; [discriminate|]. destruct (Byte.eqb c x2c); [discriminate|]. destruct (split_comma r); discriminate. Qed.
Lemma split_ok s : comma_list s (split_comma s).
Proof.
  unfold comma_list. split; [apply split_nonempty|]. induction s as [|c r (IH1 & IH2)]; [split; [reflexivity | repeat constructor; auto]|].
  cbn [split_comma]. destruct (Byte.eqb c x2c) eqn:E.
  - assert (c = x2c) as -> by (destruct c; cbv in E; (reflexivity || discriminate E)). split; [|constructor; [auto | exact IH2]].
    cbn [joined]. pose proof (split_nonempty r). destruct (split_comma r) as [|w ws]; [congruence|]. rewrite IH1. reflexivity.
  - pose proof (split_nonempty r). destruct (split_comma r) as [|w ws]; [congruence|]. inversion IH2; subst. split.
    + cbn [joined] in *. destruct ws; reflexivity.
    + constructor; [|assumption]. intros [K|K]; [subst c; discriminate E | auto].
Qed.
Lemma split_unique s ws : comma_list s ws -> ws = split_comma s.
Proof.
  intros (N & J & F). subst s. induction F as [|w ws Hw F IH]; [destruct (N eq_refl)|]. destruct ws as [|w2 ws].
  - cbn [joined]. clear -Hw. induction w as [|c r IH]; [reflexivity|]. cbn [split_comma].
    destruct (Byte.eqb c x2c) eqn:E; [exfalso; apply Hw; left; destruct c; cbv in E; (reflexivity || discriminate E)|].
    rewrite <- IH; [reflexivity | intros K; apply Hw; right; exact K].
  - specialize (IH ltac:(discriminate)). change (joined (w :: w2 :: ws)) with (w ++ x2c :: joined (w2 :: ws)). revert IH. generalize (joined (w2 :: ws)) as j. clear F N.
    intros j IH. induction w as [|c r IHw]; [cbn [app split_comma]; replace (Byte.eqb x2c x2c) with true by reflexivity; f_equal; exact IH|].
    cbn [app split_comma]. destruct (Byte.eqb c x2c) eqn:E; [exfalso; apply Hw; left; destruct c; cbv in E; (reflexivity || discriminate E)|].
    rewrite <- IHw; [reflexivity | intros K; apply Hw; right; exact K].
Qed.
