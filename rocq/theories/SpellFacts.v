(** What string literals spell, and integers. *)
From Coq Require Import Strings.String List NArith ZArith Bool Lia ZifyBool ZifyN ZifyNat.
From Verif Require Import GoBase GoBaseFacts Rfc3339 Rfc3339Facts Json SpecJson SpecGrammar JsonFacts GrammarFacts.
Import ListNotations.
Local Open Scope list_scope.

(** ** UTF-8 *)
(** What rune_size accepts is the encoding of a character. *)
Lemma two_bytes a b : (194 <= bval a <= 223)%N -> (128 <= bval b <= 191)%N ->
  exists r, scalar r /\ (128 <= r)%N /\ utf8_of r = [a; b].
Proof.
  intros A B. exists ((bval a - 192) * 64 + (bval b - 128))%N. split; [unfold scalar; lia|]. split; [lia|].
  unfold utf8_of. destruct (N.ltb_spec ((bval a - 192) * 64 + (bval b - 128)) 128); [lia|].
  destruct (N.ltb_spec ((bval a - 192) * 64 + (bval b - 128)) 2048); [|lia].
  f_equal; [|f_equal]; apply bval_inj; rewrite bval_small; Z.to_euclidean_division_equations; lia.
Qed.
Lemma three_bytes a b c : (224 <= bval a <= 239)%N -> (128 <= bval b <= 191)%N -> (128 <= bval c <= 191)%N ->
  (bval a = 224 -> 160 <= bval b)%N -> (bval a = 237 -> bval b <= 159)%N ->
  exists r, scalar r /\ (128 <= r)%N /\ utf8_of r = [a; b; c].
Proof.
  intros A B C P Q. set (r := ((bval a - 224) * 4096 + (bval b - 128) * 64 + (bval c - 128))%N).
  assert (R : (2048 <= r < 65536)%N) by (unfold r; lia). assert (S : scalar r) by (unfold scalar, r; lia).
  exists r. split; [exact S|]. split; [lia|]. unfold utf8_of.
  destruct (N.ltb_spec r 128); [lia|]. destruct (N.ltb_spec r 2048); [lia|]. destruct (N.ltb_spec r 65536); [|lia].
  unfold r. f_equal; [|f_equal; [|f_equal]]; apply bval_inj; rewrite bval_small; Z.to_euclidean_division_equations; lia.
Qed.
Lemma four_bytes a b c d : (240 <= bval a <= 244)%N -> (128 <= bval b <= 191)%N -> (128 <= bval c <= 191)%N -> (128 <= bval d <= 191)%N ->
  (bval a = 240 -> 144 <= bval b)%N -> (bval a = 244 -> bval b <= 143)%N ->
  exists r, scalar r /\ (128 <= r)%N /\ utf8_of r = [a; b; c; d].
Proof.
  intros A B C D P Q. set (r := ((bval a - 240) * 262144 + (bval b - 128) * 4096 + (bval c - 128) * 64 + (bval d - 128))%N).
  assert (R : (65536 <= r < 1114112)%N) by (unfold r; lia). exists r. split; [right; lia|]. split; [lia|]. unfold utf8_of.
  destruct (N.ltb_spec r 128); [lia|]. destruct (N.ltb_spec r 2048); [lia|]. destruct (N.ltb_spec r 65536); [lia|].
  unfold r. f_equal; [|f_equal; [|f_equal; [|f_equal]]]; apply bval_inj; rewrite bval_small; Z.to_euclidean_division_equations; lia.
Qed.
Lemma rune_size_sound l k : rune_size l = S k -> exists r l', scalar r /\ (128 <= r)%N /\ l = utf8_of r ++ l' /\ length (utf8_of r) = S k.
Proof.
  unfold rune_size, cont. destruct l as [|a [|b l]]; try discriminate.
  destruct (between 194 223 a && between 128 191 b) eqn:E2.
  { intros [= <-]. apply andb_true_iff in E2 as [A B]. apply between_iff in A, B. destruct (two_bytes a b A B) as (r & S & L & E).
    exists r, l. rewrite E. auto. }
  destruct ((Byte.eqb a xe0 && between 160 191 b) || ((between 225 236 a || between 238 239 a) && between 128 191 b) || (Byte.eqb a xed && between 128 159 b)) eqn:E3.
  { destruct l as [|c l]; [discriminate|]. destruct (between 128 191 c) eqn:C; [|discriminate]. intros [= <-]. apply between_iff in C.
    rewrite !orb_true_iff, !andb_true_iff, !orb_true_iff, !between_iff, !eqb_bval in E3. change (bval xe0) with 224%N in E3. change (bval xed) with 237%N in E3.
    destruct (three_bytes a b c) as (r & S & L & E); try lia. exists r, l. rewrite E. auto. }
  destruct ((Byte.eqb a xf0 && between 144 191 b) || (between 241 243 a && between 128 191 b) || (Byte.eqb a xf4 && between 128 143 b)) eqn:E4; [|discriminate].
  destruct l as [|c [|d l]]; try discriminate. destruct (between 128 191 c && between 128 191 d) eqn:C; [|discriminate]. intros [= <-].
  rewrite andb_true_iff, !between_iff in C. rewrite !orb_true_iff, !andb_true_iff, !between_iff, !eqb_bval in E4.
  change (bval xf0) with 240%N in E4. change (bval xf4) with 244%N in E4.
  destruct (four_bytes a b c d) as (r & S & L & E); try lia. exists r, l. rewrite E. auto.
Qed.
Lemma junk_size c l : (forall r l', scalar r -> c :: l <> utf8_of r ++ l') <-> ((128 <= bval c)%N /\ rune_size (c :: l) = 0).
Proof.
  split.
  - intros H. split.
    + destruct (N.lt_ge_cases (bval c) 128) as [L|L]; [|exact L]. exfalso. apply (H (bval c) l); [left; lia|]. unfold utf8_of.
      replace (bval c <? 128)%N with true by lia. rewrite byte_of_bval. reflexivity.
    + destruct (rune_size (c :: l)) as [|k] eqn:E; [reflexivity|]. exfalso. destruct (rune_size_sound _ _ E) as (r & l' & S & _ & E' & _). exact (H r l' S E').
  - intros [L Z] r l' S E. destruct (N.lt_ge_cases r 128) as [R|R].
    + unfold utf8_of in E. replace (r <? 128)%N with true in E by lia. injection E as -> _. rewrite bval_small in L; lia.
    + destruct (rune_size_utf8 r l' R S) as [K (a & t & E' & _)]. rewrite <- E, Z, E' in K. discriminate K.
Qed.

(** ** String literals *)
Lemma nibble_hex c : hex c -> hex_char c = Some (nibble c).
Proof.
  unfold hex, hex_char, nibble. generalize (bval c). intros n H.
  destruct ((48 <=? n) && (n <=? 57))%N eqn:A; [replace (n <? 58)%N with true by lia; reflexivity|].
  destruct ((97 <=? n) && (n <=? 102))%N eqn:B; [replace (n <? 58)%N with false by lia; replace (n <? 71)%N with false by lia; reflexivity|].
  replace ((65 <=? n) && (n <=? 70))%N with true by lia. replace (n <? 58)%N with false by lia. replace (n <? 71)%N with true by lia. reflexivity.
Qed.
Lemma nibble_small c : hex c -> (nibble c < 16)%N.
Proof. unfold hex, nibble. generalize (bval c). intros n H. destruct (N.ltb_spec n 58); [lia|]. destruct (N.ltb_spec n 71); lia. Qed.
Lemma getu4_unit a b c d : hex a -> hex b -> hex c -> hex d -> getu4 a b c d = unit4 a b c d /\ (unit4 a b c d < 65536)%N.
Proof.
  intros A B C D. unfold getu4, unit4. rewrite !nibble_hex by assumption. apply nibble_small in A, B, C, D. split; lia.
Qed.
Lemma scalar_unit u : (u < 65536)%N -> scalar u <-> ((55296 <=? u) && (u <? 57344))%N = false.
Proof. unfold scalar. lia. Qed.
(** The second half of a pair *)
Lemma lone_half {A} (l : bytes) (F : byte -> byte -> byte -> byte -> bytes -> A) (G : A) :
  (forall a b c d l', l = x5c :: x75 :: a :: b :: c :: d :: l' -> F a b c d l' = G) ->
  match l with x5c :: x75 :: a :: b :: c :: d :: l' => F a b c d l' | _ => G end = G.
Proof.
  intros H. destruct l as [|c1 l]; [reflexivity|]. destruct (Byte.eqb c1 x5c) eqn:E1.
  - apply byte_eqb_eq in E1 as ->. destruct l as [|c2 l]; [reflexivity|]. destruct (Byte.eqb c2 x75) eqn:E2.
    + apply byte_eqb_eq in E2 as ->. destruct l as [|a [|b [|c [|d l]]]]; try reflexivity. eapply H. reflexivity.
    + destruct c2; try reflexivity. discriminate E2.
  - destruct c1; try reflexivity. discriminate E1.
Qed.

Lemma chars_tail t : Forall (fun c => (128 <= bval c)%N) t -> forall l, chars (t ++ l) -> chars l.
Proof.
  induction 1 as [|c t H _ IH]; intros l C; [exact C|]. cbn [app] in C. apply IH.
  inversion C as [|? ? _ _ _ K|? ? _ K|]; subst; [exact K| |]; exfalso; apply H; reflexivity.
Qed.
Lemma utf8_high r : (128 <= r)%N -> scalar r -> Forall (fun c => (128 <= bval c)%N) (utf8_of r).
Proof.
  intros L S. unfold scalar in S. unfold utf8_of. destruct (N.ltb_spec r 128); [lia|].
  destruct (N.ltb_spec r 2048); [|destruct (N.ltb_spec r 65536)]; repeat constructor; rewrite bval_small; Z.to_euclidean_division_equations; lia.
Qed.
Lemma unquote_char r l : scalar r -> r <> 92%N -> unquote_go 0 (utf8_of r ++ l) = utf8_of r ++ unquote_go 0 l.
Proof.
  intros S B. destruct (N.lt_ge_cases r 128) as [L|L].
  - unfold utf8_of. replace (r <? 128)%N with true by lia. cbn [app unquote_go]. rewrite eqb_bval, bval_small by lia.
    change (bval x5c) with 92%N. replace (r =? 92)%N with false by lia. replace (r <? 128)%N with true by lia. reflexivity.
  - destruct (rune_size_utf8 r l L S) as [Z (a & t & E & H)]. rewrite E in *. cbn [app unquote_go length] in *.
    rewrite eqb_bval. change (bval x5c) with 92%N. replace (bval a =? 92)%N with false by lia. replace (bval a <? 128)%N with false by lia.
    rewrite Z, unquote_copy. reflexivity.
Qed.
Lemma unquote_short c v l : short_escape c v -> unquote_go 0 (x5c :: c :: l) = utf8_of v ++ unquote_go 0 l.
Proof.
  unfold short_escape. cbn [In]. intros H.
  repeat (destruct H as [H|H]; [injection H as <- <-; reflexivity|]). contradiction H.
Qed.
Lemma unquote_u a b c d l : unquote_go 0 (x5c :: x75 :: a :: b :: c :: d :: l) =
  if ((55296 <=? getu4 a b c d) && (getu4 a b c d <? 57344))%N then
    match l with
    | x5c :: x75 :: a' :: b' :: c' :: d' :: l' =>
        if ((getu4 a b c d <? 56320) && (56320 <=? getu4 a' b' c' d') && (getu4 a' b' c' d' <? 57344))%N
        then put_rune ((getu4 a b c d - 55296) * 1024 + (getu4 a' b' c' d' - 56320) + 65536)%N ++ unquote_go 0 l'
        else replacement ++ unquote_go 0 l
    | _ => replacement ++ unquote_go 0 l
    end
  else put_rune (getu4 a b c d) ++ unquote_go 0 l.
Proof. reflexivity. Qed.
Lemma unquote_unit a b c d l : hex a -> hex b -> hex c -> hex d -> scalar (unit4 a b c d) ->
  unquote_go 0 (x5c :: x75 :: a :: b :: c :: d :: l) = utf8_of (unit4 a b c d) ++ unquote_go 0 l.
Proof.
  intros A B C D S. destruct (getu4_unit a b c d A B C D) as [E L]. rewrite unquote_u, E.
  apply (scalar_unit _ L) in S. rewrite S. reflexivity.
Qed.
Lemma unquote_pair a b c d a' b' c' d' l : hex a -> hex b -> hex c -> hex d -> hex a' -> hex b' -> hex c' -> hex d' ->
  high_half (unit4 a b c d) -> low_half (unit4 a' b' c' d') ->
  unquote_go 0 (x5c :: x75 :: a :: b :: c :: d :: x5c :: x75 :: a' :: b' :: c' :: d' :: l) =
  utf8_of (65536 + (unit4 a b c d - 55296) * 1024 + (unit4 a' b' c' d' - 56320)) ++ unquote_go 0 l.
Proof.
  intros A B C D A' B' C' D' H L. destruct (getu4_unit a b c d A B C D) as [E _]. destruct (getu4_unit a' b' c' d' A' B' C' D') as [E' _].
  unfold high_half, low_half in *. rewrite unquote_u, E, E'.
  replace ((55296 <=? unit4 a b c d) && (unit4 a b c d <? 57344))%N with true by lia.
  replace ((unit4 a b c d <? 56320) && (56320 <=? unit4 a' b' c' d') && (unit4 a' b' c' d' <? 57344))%N with true by lia.
  replace ((unit4 a b c d - 55296) * 1024 + (unit4 a' b' c' d' - 56320) + 65536)%N
    with (65536 + (unit4 a b c d - 55296) * 1024 + (unit4 a' b' c' d' - 56320))%N by lia. reflexivity.
Qed.
Lemma unquote_half a b c d l : hex a -> hex b -> hex c -> hex d -> chars l -> ~ scalar (unit4 a b c d) ->
  (high_half (unit4 a b c d) -> forall a' b' c' d' l', l = x5c :: x75 :: a' :: b' :: c' :: d' :: l' -> ~ low_half (unit4 a' b' c' d')) ->
  unquote_go 0 (x5c :: x75 :: a :: b :: c :: d :: l) = utf8_of 65533 ++ unquote_go 0 l.
Proof.
  intros A B C D Ch S H. destruct (getu4_unit a b c d A B C D) as [E L]. rewrite unquote_u, E.
  assert (((55296 <=? unit4 a b c d) && (unit4 a b c d <? 57344))%N = true) as K.
  { apply not_false_iff_true. intros K. apply S. apply (scalar_unit _ L), K. }
  rewrite K. apply lone_half. intros a' b' c' d' l' ->.
  inversion Ch as [|? ? _ _ X _|? ? X _|? ? ? ? ? A' B' C' D' _]; subst; [contradiction X; reflexivity|vm_compute in X; intuition discriminate|].
  destruct (getu4_unit a' b' c' d' A' B' C' D') as [E' _]. rewrite E'. unfold high_half, low_half in H.
  destruct (N.ltb_spec (unit4 a b c d) 56320) as [Hh|Hh]; [|reflexivity].
  specialize (H ltac:(lia) _ _ _ _ _ eq_refl). cbn [andb].
  replace ((56320 <=? unit4 a' b' c' d') && (unit4 a' b' c' d' <? 57344))%N with false by lia. reflexivity.
Qed.
Lemma unquote_junk c l : (forall r l', scalar r -> c :: l <> utf8_of r ++ l') -> unquote_go 0 (c :: l) = utf8_of 65533 ++ unquote_go 0 l.
Proof.
  intros H. apply junk_size in H as [L Z]. cbn [unquote_go]. rewrite Z, eqb_bval. change (bval x5c) with 92%N.
  replace (bval c =? 92)%N with false by lia. replace (bval c <? 128)%N with false by lia. reflexivity.
Qed.

Lemma short_of c : In c (x22 :: str "\/bfnrt") -> exists v, short_escape c v.
Proof. unfold short_escape. cbn. intros H. repeat (destruct H as [<-|H]; [eexists; repeat (try (left; reflexivity); right)|]). contradiction H. Qed.
Lemma chars_utf8 r l : scalar r -> r <> 92%N -> chars (utf8_of r ++ l) -> chars l.
Proof.
  intros S B. destruct (N.lt_ge_cases r 128) as [L|L].
  - unfold utf8_of. replace (r <? 128)%N with true by lia. cbn [app]. intros C.
    assert (N : byte_of r <> x5c) by (intros K; apply B; rewrite <- (bval_small r) by lia; rewrite K; reflexivity).
    inversion C as [|? ? _ _ _ K|? ? _ K|]; subst; try exact K; congruence.
  - apply chars_tail. apply utf8_high; assumption.
Qed.
(** A literal spells exactly what the decoder makes of it. *)
Lemma spells_unique l s : spells l s -> chars l -> unquote_go 0 l = s.
Proof.
  induction 1 as [|r l s S B _ IH|c v l s E _ IH|a b c d l s S _ IH|a b c d a' b' c' d' l s H L _ IH|a b c d l s S H _ IH|c l s J _ IH]; intros C.
  - reflexivity.
  - rewrite unquote_char by assumption. rewrite IH; [reflexivity|]. eapply chars_utf8; eassumption.
  - rewrite (unquote_short _ _ _ E), IH; [reflexivity|].
    inversion C as [|? ? _ _ X _|? ? _ K|? ? ? ? ? _ _ _ _ K]; subst; [contradiction X; reflexivity|exact K|].
    unfold short_escape in E. cbn in E. intuition discriminate.
  - inversion C as [|? ? _ _ X _|? ? X _|? ? ? ? ? A' B' C' D' K]; subst; [contradiction X; reflexivity|vm_compute in X; intuition discriminate|].
    rewrite unquote_unit by assumption. rewrite IH by exact K. reflexivity.
  - inversion C as [|? ? _ _ X _|? ? X _|? ? ? ? ? A B C0 D K]; subst; [contradiction X; reflexivity|vm_compute in X; intuition discriminate|].
    inversion K as [|? ? _ _ X _|? ? X _|? ? ? ? ? A' B' C' D' K']; subst; [contradiction X; reflexivity|vm_compute in X; intuition discriminate|].
    rewrite unquote_pair by assumption. rewrite IH by exact K'. reflexivity.
  - inversion C as [|? ? _ _ X _|? ? X _|? ? ? ? ? A B C0 D K]; subst; [contradiction X; reflexivity|vm_compute in X; intuition discriminate|].
    rewrite unquote_half by assumption. rewrite IH by exact K. reflexivity.
  - rewrite (unquote_junk _ _ J), IH; [reflexivity|]. apply junk_size in J as [J _]. apply (chars_tail [c]); [constructor; [exact J|constructor]|exact C].
Qed.
Lemma spells_exists n : forall l, length l <= n -> chars l -> exists s, spells l s.
Proof.
  induction n as [|n IH]; intros l L C; [destruct l; [exists []; constructor|cbn in L; lia]|].
  inversion C as [|c r K Q B H|c r K H|a b c d r A B C0 D H]; subst.
  - exists []. constructor.
  - destruct (N.lt_ge_cases (bval c) 128) as [Lt|Ge].
    + destruct (IH r) as [s P]; [cbn in L; lia|exact H|]. exists (c :: s).
      assert (S : scalar (bval c)) by (left; lia). assert (E : utf8_of (bval c) = [c]).
      { unfold utf8_of. replace (bval c <? 128)%N with true by lia. rewrite byte_of_bval. reflexivity. }
      pose proof (spells_char (bval c) r s S) as X. rewrite E in X. apply X; [|exact P]. intros N. apply B, bval_inj. exact N.
    + destruct (rune_size (c :: r)) as [|k] eqn:Z.
      * destruct (IH r) as [s P]; [cbn in L; lia|exact H|]. exists (utf8_of 65533 ++ s). apply spells_junk; [|exact P]. apply junk_size. auto.
      * destruct (rune_size_sound _ _ Z) as (u & l' & S & U & E & Le). destruct (IH l') as [s P].
        -- apply (f_equal (@length byte)) in E. rewrite app_length, Le in E. cbn [length] in *. lia.
        -- rewrite E in C. apply (chars_utf8 u); [exact S|lia|exact C].
        -- exists (utf8_of u ++ s). rewrite E. apply spells_char; [exact S|lia|exact P].
  - destruct (IH r) as [s P]; [cbn in L; lia|exact H|]. destruct (short_of c K) as [v V]. eexists. apply spells_escape; eassumption.
  - cbn [length] in L. destruct (IH r) as [s P]; [lia|exact H|].
    destruct (getu4_unit a b c d A B C0 D) as [_ U].
    destruct ((55296 <=? unit4 a b c d) && (unit4 a b c d <? 57344))%N eqn:Su.
    2: { eexists. apply spells_unit; [apply (scalar_unit _ U), Su|exact P]. }
    assert (NS : ~ scalar (unit4 a b c d)) by (intros X; apply (scalar_unit _ U) in X; congruence).
    destruct (N.ltb_spec (unit4 a b c d) 56320) as [Hh|Hh].
    2: { eexists. apply spells_half; [exact NS| |exact P]. unfold high_half. lia. }
    assert (Hi : high_half (unit4 a b c d)) by (unfold high_half; lia).
    assert (X : (exists a' b' c' d' l', r = x5c :: x75 :: a' :: b' :: c' :: d' :: l' /\ low_half (unit4 a' b' c' d')) \/
      forall a' b' c' d' l', r = x5c :: x75 :: a' :: b' :: c' :: d' :: l' -> ~ low_half (unit4 a' b' c' d')).
    { inversion H as [|c1 r1 K1 Q1 B1 H1|c1 r1 K1 H1|a' b' c' d' r1 A' B' C' D' H1]; subst.
      - right. discriminate.
      - right. intros ? ? ? ? ? [= -> _]. contradiction B1. reflexivity.
      - right. intros ? ? ? ? ? [= -> _]. vm_compute in K1. intuition discriminate.
      - destruct ((56320 <=? unit4 a' b' c' d') && (unit4 a' b' c' d' <? 57344))%N eqn:Lo.
        + left. exists a', b', c', d', r1. split; [reflexivity|]. unfold low_half. lia.
        + right. intros ? ? ? ? ? [= <- <- <- <- <-]. unfold low_half. lia. }
    destruct X as [(a' & b' & c' & d' & l' & -> & Lo)|X].
    + destruct (IH l') as [s' P']; [cbn [length] in L; lia| |eexists; apply spells_pair; eassumption].
      inversion H as [|? ? _ _ X _|? ? X _|? ? ? ? ? _ _ _ _ K]; subst; [contradiction X; reflexivity|vm_compute in X; intuition discriminate|exact K].
    + eexists. apply spells_half; [exact NS| |exact P]. intros _. exact X.
Qed.
Lemma unquote_spells raw s : chars raw -> (unquote raw = s <-> spells raw s).
Proof.
  intros C. unfold unquote. split.
  - intros <-. destruct (spells_exists _ raw (le_n _) C) as [s P]. rewrite (spells_unique _ _ P C). exact P.
  - intros P. exact (spells_unique _ _ P C).
Qed.

(** ** Integers *)
Lemma valdr_pos l : Forall digit l -> l <> [] -> last l x31 <> x30 -> (0 < valdr l)%N.
Proof.
  induction l as [|c l IH]; intros D N Z; [contradiction|]. inversion D as [|? ? D1 D2]; subst. unfold valdr. cbn [fold_right]. fold (valdr l).
  destruct l as [|c' l]; [|specialize (IH D2 ltac:(discriminate) Z); lia]. cbn [last] in Z. unfold digit in D1.
  assert (bval c <> 48%N) by (intros E; apply Z, bval_inj; exact E). lia.
Qed.
Lemma valdr_inj l : forall l', Forall digit l -> Forall digit l' -> last l x31 <> x30 -> last l' x31 <> x30 -> valdr l = valdr l' -> l = l'.
Proof.
  induction l as [|c l IH]; intros [|c' l'] D D' Z Z' E.
  - reflexivity.
  - pose proof (valdr_pos _ D' ltac:(discriminate) Z'). change (valdr []) with 0%N in E. lia.
  - pose proof (valdr_pos _ D ltac:(discriminate) Z). change (valdr []) with 0%N in E. lia.
  - inversion D as [|? ? D1 D2]; subst. inversion D' as [|? ? D1' D2']; subst. unfold valdr in E. cbn [fold_right] in E. fold (valdr l) (valdr l') in E.
    unfold digit in D1, D1'. assert (bval c = bval c' /\ valdr l = valdr l') as [E1 E2] by lia. apply bval_inj in E1 as ->. f_equal.
    apply IH; try assumption; [destruct l; [discriminate|exact Z]|destruct l'; [discriminate|exact Z']].
Qed.
Lemma whole_digits i : whole i -> digits i /\ i <> [].
Proof.
  assert (K : forall c, digit c -> digit_char c = true) by (intros c; apply digit_iff).
  intros [->|(c & r & -> & C & F)]; (split; [|discriminate]).
  - constructor; [reflexivity|constructor].
  - constructor; [apply K; unfold digit; lia|]. eapply Forall_impl; [exact K|exact F].
Qed.
Lemma whole_dec i : whole i -> i = dec (vald i).
Proof.
  intros H. destruct (whole_digits i H) as [D _]. destruct H as [->|(c & r & -> & C & F)]; [reflexivity|].
  assert (Cz : c <> x30) by (intros ->; apply (proj1 C); reflexivity).
  assert (T : vald (dec (vald (c :: r))) = vald (c :: r)) by apply vald_dec.
  assert (Dd : Forall digit (c :: r)) by (constructor; [unfold digit; lia|exact F]).
  assert (P : (0 < vald (c :: r))%N).
  { rewrite <- (rev_involutive (c :: r)), vald_rev. apply valdr_pos; [apply Forall_rev, Dd| |].
    - intros E. apply (f_equal (@rev byte)) in E. rewrite rev_involutive in E. discriminate E.
    - cbn [rev]. rewrite last_last. exact Cz. }
  destruct (dec_top (vald (c :: r))) as [E|E]; [lia|].
  pose proof (dec_digits (vald (c :: r))) as D'. pose proof (dec_nonempty (vald (c :: r))) as N'. set (d := dec (vald (c :: r))) in *. clearbody d.
  rewrite <- (rev_involutive (c :: r)), <- (rev_involutive d). f_equal. apply valdr_inj.
  - apply Forall_rev, Dd.
  - apply Forall_rev. eapply Forall_impl; [|exact D']. intros x X. apply digit_iff, X.
  - cbn [rev]. rewrite last_last. exact Cz.
  - destruct d as [|a d]; [contradiction|]. cbn [rev]. rewrite last_last. exact E.
  - rewrite <- !vald_rev, !rev_involutive. symmetry. exact T.
Qed.
Lemma uint_stop a : forall x c b, digit_char c = false -> uint_go x (a ++ c :: b) = None.
Proof.
  induction a as [|d a IH]; intros x c b H; cbn [app uint_go]; [rewrite H; reflexivity|]. destruct (digit_char d); [apply IH, H|reflexivity].
Qed.
Lemma tail_empty f e i x : fraction f -> exponent e -> (f = [] /\ e = []) \/ uint_go x (i ++ f ++ e) = None.
Proof.
  intros [->|(d & -> & _)] E; [|right; cbn [app]; apply uint_stop; reflexivity].
  destruct E as [->|(c & s & d & -> & C & _)]; [left; split; reflexivity|right]. cbn [app]. apply uint_stop.
  cbn in C. destruct C as [<-|[<-|[]]]; reflexivity.
Qed.
Lemma uint_whole i : whole i -> uint_go 0 i = Some (Z.of_N (vald i)).
Proof. intros H. apply uint_digits, whole_digits, H. Qed.
Lemma dec_no_sign n : forall t, dec n <> x2d :: t.
Proof. intros t E. pose proof (dec_digits n) as D. rewrite E in D. inversion D as [|? ? D1 ?]. discriminate D1. Qed.
Lemma parse_int_spec lo hi raw z : number raw -> (parse_int lo hi raw = Some z <-> signed_text raw z /\ (lo <= z <= hi)%Z).
Proof.
  intros (sg & i & f & e & -> & Sg & I & F & E).
  assert (H0 : forall c t, i = c :: t -> c <> x2d).
  { intros c t -> ->. destruct I as [I|(c & r & X & C & _)]; [discriminate I|]. injection X as <- _. apply (proj1 C). reflexivity. }
  assert (Ni : i <> []) by (apply whole_digits, I).
  assert (P : parse_int lo hi (sg ++ i ++ f ++ e) = match uint_go 0 (i ++ f ++ e) with
    | Some x => let z := if Nat.eqb (length sg) 0 then x else (- x)%Z in if (lo <=? z)%Z && (z <=? hi)%Z then Some z else None
    | None => None end).
  { unfold parse_int. destruct Sg as [->| ->].
    - destruct i as [|c i]; [contradiction|]. cbn [app]. rewrite (proj2 (byte_eqb_neq c x2d)) by (eapply H0; reflexivity). reflexivity.
    - change (str "-" ++ i ++ f ++ e) with (x2d :: i ++ f ++ e). change (Byte.eqb x2d x2d) with true. cbv iota.
      destruct i as [|c i]; [contradiction|]. reflexivity. }
  rewrite P. clear P. destruct (tail_empty f e i 0 F E) as [[-> ->]|N].
  - rewrite !app_nil_r, (uint_whole i I). pose proof (whole_dec i I) as W. unfold signed_text, decZ. destruct Sg as [->| ->].
    + cbn [app length Nat.eqb]. cbv zeta. split.
      * destruct ((lo <=? Z.of_N (vald i))%Z && (Z.of_N (vald i) <=? hi)%Z) eqn:B; [|discriminate]. intros [= <-]. split; [|lia]. left.
        replace (Z.of_N (vald i) <? 0)%Z with false by lia. rewrite N2Z.id. exact W.
      * intros [[T|[T _]] B].
        -- destruct (Z.ltb_spec z 0) as [L|L]; [exfalso; eapply H0; [exact T|reflexivity]|].
           rewrite W in T. apply dec_inj in T. rewrite T, Z2N.id by lia. replace ((lo <=? z)%Z && (z <=? hi)%Z) with true by lia. reflexivity.
        -- exfalso. eapply H0; [exact T|reflexivity].
    + change (str "-" ++ i) with (x2d :: i). change (Nat.eqb (length (str "-")) 0) with false. cbv zeta iota. split.
      * destruct ((lo <=? - Z.of_N (vald i))%Z && (- Z.of_N (vald i) <=? hi)%Z) eqn:B; [|discriminate]. intros [= <-]. split; [|lia].
        destruct (N.eq_dec (vald i) 0) as [Z0|Z0].
        -- right. rewrite W, Z0. split; reflexivity.
        -- left. replace (- Z.of_N (vald i) <? 0)%Z with true by lia. rewrite Z.opp_involutive, N2Z.id, <- W. reflexivity.
      * intros [[T|[T ->]] B].
        -- destruct (Z.ltb_spec z 0) as [L|L]; [|symmetry in T; apply dec_no_sign in T; contradiction].
           injection T as T. rewrite W in T. apply dec_inj in T. rewrite T, Z2N.id by lia. rewrite Z.opp_involutive.
           replace ((lo <=? z)%Z && (z <=? hi)%Z) with true by lia. reflexivity.
        -- injection T as ->. change (Z.of_N (vald [x30])) with 0%Z. cbn [Z.opp]. replace ((lo <=? 0)%Z && (0 <=? hi)%Z) with true by lia. reflexivity.
  - rewrite N. split; [discriminate|]. intros [T B]. exfalso.
    assert (X : forall n, i ++ f ++ e = dec n -> False).
    { intros n K. rewrite K, (uint_digits _ (dec_digits n)) in N. discriminate N. }
    destruct T as [T|[T _]].
    + unfold decZ in T. destruct Sg as [->| ->].
      * destruct (z <? 0)%Z; [|exact (X _ T)]. destruct i as [|c i]; [contradiction|]. eapply H0; [reflexivity|]. injection T as T _. exact T.
      * destruct (z <? 0)%Z; [injection T as T; exact (X _ T)|]. symmetry in T. exact (dec_no_sign _ _ T).
    + destruct Sg as [->| ->].
      * destruct i as [|c i]; [contradiction|]. eapply H0; [reflexivity|]. injection T as T _. exact T.
      * injection T as T. apply (X 0%N). exact T.
Qed.
Lemma parse_unsigned_spec hi raw n : number raw -> (parse_unsigned hi raw = Some (Z.of_N n) <-> unsigned_text raw n /\ (Z.of_N n <= hi)%Z).
Proof.
  intros (sg & i & f & e & -> & Sg & I & F & E). unfold unsigned_text. destruct Sg as [->| ->].
  - cbn [app]. assert (P : parse_unsigned hi (i ++ f ++ e) = match uint_go 0 (i ++ f ++ e) with Some x => if (x <=? hi)%Z then Some x else None | None => None end).
    { unfold parse_unsigned. destruct (whole_digits i I) as [_ N]. destruct i; [contradiction|reflexivity]. }
    rewrite P. clear P. destruct (tail_empty f e i 0 F E) as [[-> ->]|N].
    + rewrite !app_nil_r, (uint_whole i I). pose proof (whole_dec i I) as W. split.
      * destruct (Z.of_N (vald i) <=? hi)%Z eqn:B; [|discriminate]. intros H. injection H as H. apply N2Z.inj in H. subst n. split; [exact W|lia].
      * intros [T B]. rewrite T, vald_dec. replace (Z.of_N n <=? hi)%Z with true by lia. reflexivity.
    + rewrite N. split; [discriminate|]. intros [T _]. rewrite T, (uint_digits _ (dec_digits n)) in N. discriminate N.
  - split; [discriminate|]. intros [T _]. symmetry in T. apply dec_no_sign in T. contradiction.
Qed.
