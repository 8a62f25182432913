(** JSON: parsing what was rendered, string literals, numbers. *)
From Coq Require Import Strings.String List NArith ZArith Bool Lia.
From Coq Require Import ZifyBool ZifyNat ZifyN.
From Verif Require Import GoBase GoBaseFacts Rfc3339 Rfc3339Facts Json SpecJson.
Import ListNotations.
Local Open Scope list_scope.

(** ** UTF-8 *)
Lemma bval_small x : (x < 256)%N -> bval (byte_of x) = x.
Proof. intros H. rewrite bval_byte_of. apply N.mod_small. exact H. Qed.

Lemma between_iff lo hi c : between lo hi c = true <-> (lo <= bval c <= hi)%N.
Proof. unfold between. lia. Qed.
Lemma eqb_bval a b : Byte.eqb a b = (bval a =? bval b)%N.
Proof.
  destruct (Byte.eqb a b) eqn:E.
  - apply byte_eqb_eq in E. subst. lia.
  - apply byte_eqb_neq in E. assert (bval a <> bval b) by (intros H; apply E, bval_inj, H). lia.
Qed.

(** The encoding of a scalar value from 128 on is recognized. *)
Lemma rune_size_utf8 r s : (128 <= r)%N -> scalar r -> rune_size (utf8_of r ++ s) = length (utf8_of r) /\
  exists a t, utf8_of r = a :: t /\ (128 <= bval a)%N.
Proof.
  intros L S. unfold utf8_of. destruct (N.ltb_spec r 128) as [|_]; [lia|].
  unfold scalar in S.
  destruct (N.ltb_spec r 2048) as [L2|L2]; [|destruct (N.ltb_spec r 65536) as [L3|L3]]; cbn [app length]; (split; [|eexists _, _; split; [reflexivity|]]).
  - unfold rune_size, cont, between. rewrite !bval_small by (Z.to_euclidean_division_equations; lia).
    match goal with |- (if ?b then _ else _) = _ => replace b with true by (Z.to_euclidean_division_equations; lia) end. reflexivity.
  - rewrite bval_small by (Z.to_euclidean_division_equations; lia). lia.
  - unfold rune_size, cont, between. rewrite !eqb_bval. rewrite !bval_small by (Z.to_euclidean_division_equations; lia).
    change (bval xe0) with 224%N. change (bval xed) with 237%N.
    match goal with |- (if ?b then _ else _) = _ => replace b with false by (Z.to_euclidean_division_equations; lia) end.
    match goal with |- (if ?b then _ else _) = _ => replace b with true by (Z.to_euclidean_division_equations; lia) end.
    match goal with |- (if ?b then _ else _) = _ => replace b with true by (Z.to_euclidean_division_equations; lia) end. reflexivity.
  - rewrite bval_small by (Z.to_euclidean_division_equations; lia). lia.
  - unfold rune_size, cont, between. rewrite !eqb_bval. rewrite !bval_small by (Z.to_euclidean_division_equations; lia).
    change (bval xe0) with 224%N. change (bval xed) with 237%N. change (bval xf0) with 240%N. change (bval xf4) with 244%N.
    match goal with |- (if ?b then _ else _) = _ => replace b with false by (Z.to_euclidean_division_equations; lia) end.
    match goal with |- (if ?b then _ else _) = _ => replace b with false by (Z.to_euclidean_division_equations; lia) end.
    match goal with |- (if ?b then _ else _) = _ => replace b with true by (Z.to_euclidean_division_equations; lia) end.
    match goal with |- (if ?b then _ else _) = _ => replace b with true by (Z.to_euclidean_division_equations; lia) end. reflexivity.
  - rewrite bval_small by (Z.to_euclidean_division_equations; lia). lia.
Qed.

(** ** String literals *)
Lemma quote_copy t : forall s, quote_go (length t) 0 (t ++ s) = t ++ quote_go 0 0 s.
Proof. induction t as [|c t IH]; intros s; [reflexivity|]. cbn [length app quote_go]. rewrite IH. reflexivity. Qed.
Lemma unquote_copy t : forall s, unquote_go (length t) (t ++ s) = t ++ unquote_go 0 s.
Proof. induction t as [|c t IH]; intros s; [reflexivity|]. cbn [length app unquote_go]. rewrite IH. reflexivity. Qed.

Lemma separator_some l d : separator l = Some d -> exists c r, l = xe2 :: x80 :: c :: r /\ (c = xa8 /\ d = x38 \/ c = xa9 /\ d = x39).
Proof.
  unfold separator. destruct l as [|a [|b [|c r]]]; try (destruct a; try discriminate; destruct b; discriminate);
    try (destruct a; discriminate); try discriminate.
  destruct a; try discriminate. destruct b; try discriminate. destruct c; try discriminate; intros H; injection H as <-; eauto 6.
Qed.

Lemma unquote_ascii c s : (bval c < 128)%N -> unquote_go 0 (quote_ascii c ++ s) = c :: unquote_go 0 s.
Proof. intros H. destruct c; try reflexivity; exfalso; revert H; apply N.le_ngt; intros K; discriminate K. Qed.

Lemma unquote_quote_char r s : scalar r ->
  unquote_go 0 (quote_go 0 0 (utf8_of r ++ s)) = utf8_of r ++ unquote_go 0 (quote_go 0 0 s).
Proof.
  intros S. destruct (N.lt_ge_cases r 128) as [L|L].
  - unfold utf8_of. replace (r <? 128)%N with true by lia. cbn [app]. cbn [quote_go].
    rewrite bval_small by lia. replace (r <? 128)%N with true by lia.
    apply unquote_ascii. rewrite bval_small by lia. exact L.
  - destruct (rune_size_utf8 r s L S) as [Z (a & t & E & B)].
    rewrite E in *. cbn [app length] in *. cbn [quote_go]. replace (bval a <? 128)%N with false by lia. rewrite Z.
    destruct (separator (a :: t ++ s)) as [d|] eqn:P.
    + assert (Lt : (length t = 2)%nat).
      { destruct (separator_some _ _ P) as (c & q & Q & _). injection Q as -> Q.
        unfold rune_size in Z. rewrite Q in Z.
        change (between 194 223 xe2 && cont x80) with false in Z.
        change ((Byte.eqb xe2 xe0 && between 160 191 x80) || ((between 225 236 xe2 || between 238 239 xe2) && cont x80) || (Byte.eqb xe2 xed && between 128 159 x80)) with true in Z.
        cbv iota in Z. destruct (cont c); [|discriminate Z]. injection Z as Z. symmetry. exact Z. }
      destruct t as [|b [|c [|? ?]]]; try discriminate Lt. cbn [app] in *.
      destruct (separator_some _ _ P) as (c' & q & Q & D). injection Q as -> -> -> ->. cbn [quote_go].
      destruct D as [[-> ->]|[-> ->]]; reflexivity.
    + rewrite quote_copy. cbn [unquote_go]. rewrite eqb_bval. change (bval x5c) with 92%N.
      replace (bval a =? 92)%N with false by lia. replace (bval a <? 128)%N with false by lia.
      destruct (rune_size_utf8 r (quote_go 0 0 s) L S) as [Z' _]. rewrite E in Z'. cbn [app length] in Z'. rewrite Z'.
      rewrite unquote_copy. reflexivity.
Qed.

Lemma unquote_quote s : utf8 s -> unquote (quote s) = s.
Proof.
  intros (rs & H & ->). unfold unquote, quote. induction H as [|r rs Hr Hrs IH]; [reflexivity|].
  cbn [map concat]. rewrite unquote_quote_char, IH by exact Hr. reflexivity.
Qed.

(** Bytes after the first of a valid character. *)
Lemma rune_size_cont a l k : rune_size (a :: l) = S k -> Forall (fun c => (128 <= bval c)%N) (firstn k l).
Proof.
  assert (C : forall c, cont c = true -> (128 <= bval c)%N) by (intros c; unfold cont; rewrite between_iff; lia).
  assert (B : forall lo hi c, (128 <= lo)%N -> between lo hi c = true -> (128 <= bval c)%N) by (intros lo hi c K; rewrite between_iff; lia).
  unfold rune_size. destruct l as [|b r]; [discriminate|].
  destruct (between 194 223 a && cont b) eqn:E2.
  { intros K. injection K as <-. apply andb_true_iff in E2. cbn [firstn]. constructor; [apply C, E2|constructor]. }
  match goal with |- (if ?x then _ else _) = _ -> _ => destruct x eqn:E3 end.
  { destruct r as [|c r]; [discriminate|]. destruct (cont c) eqn:Ec; [|discriminate]. intros K. injection K as <-.
    cbn [firstn]. constructor; [|constructor; [apply C, Ec|constructor]].
    repeat rewrite orb_true_iff in E3. repeat rewrite andb_true_iff in E3.
    destruct E3 as [[[_ E]|[_ E]]|[_ E]]; [apply (B 160%N 191%N)|apply C|apply (B 128%N 159%N)]; first [exact E|intros K; discriminate K]. }
  match goal with |- (if ?x then _ else _) = _ -> _ => destruct x eqn:E4 end; [|discriminate].
  destruct r as [|c [|d r]]; try discriminate. destruct (cont c && cont d) eqn:Ec; [|discriminate]. intros K. injection K as <-.
  apply andb_true_iff in Ec. cbn [firstn]. constructor; [|constructor; [apply C, Ec|constructor; [apply C, Ec|constructor]]].
  repeat rewrite orb_true_iff in E4. repeat rewrite andb_true_iff in E4.
  destruct E4 as [[[_ E]|[_ E]]|[_ E]]; [apply (B 144%N 191%N)|apply C|apply (B 128%N 143%N)]; first [exact E|intros K; discriminate K].
Qed.


Lemma scan_ascii c l a r : (bval c < 128)%N -> scan_str l = Some (a, r) ->
  scan_str (quote_ascii c ++ l) = Some (quote_ascii c ++ a, r).
Proof.
  intros H E. destruct c; try (exfalso; revert H; apply N.le_ngt; intros K; discriminate K);
    cbn -[scan_str]; cbn [scan_str Byte.eqb]; try (cbn; rewrite E; reflexivity).
Qed.

Lemma scan_high c l a r : (128 <= bval c)%N -> scan_str l = Some (a, r) -> scan_str (c :: l) = Some (c :: a, r).
Proof.
  intros H E. cbn [scan_str]. rewrite !eqb_bval. change (bval x22) with 34%N. change (bval x5c) with 92%N.
  replace (bval c =? 34)%N with false by lia. replace (bval c =? 92)%N with false by lia.
  replace (bval c <? 32)%N with false by lia. rewrite E. reflexivity.
Qed.

(** The literal that the encoder writes is scanned as one string. *)
Lemma scan_quote_go r l : forall k skip, Forall (fun c => (128 <= bval c)%N) (firstn k l) ->
  scan_str (quote_go k skip l ++ x22 :: r) = Some (quote_go k skip l, r).
Proof.
  induction l as [|c l IH]; intros k skip H; [reflexivity|]. cbn [quote_go]. destruct k as [|k].
  - destruct skip as [|skip]; [|apply IH; constructor].
    destruct (N.ltb_spec (bval c) 128) as [L|L].
    + rewrite <- app_assoc. apply scan_ascii; [exact L|]. apply IH. constructor.
    + destruct (rune_size (c :: l)) as [|k] eqn:E.
      * specialize (IH 0%nat 0%nat (Forall_nil _)). cbn. rewrite IH. reflexivity.
      * destruct (separator (c :: l)) as [d|] eqn:P.
        -- specialize (IH 0%nat 2%nat (Forall_nil _)). destruct (separator_some _ _ P) as (c' & q & _ & [[_ ->]|[_ ->]]);
             cbn; rewrite IH; reflexivity.
        -- cbn [app]. apply scan_high; [exact L|]. apply IH. apply (rune_size_cont c l k E).
  - cbn [firstn] in H. inversion H as [|? ? Hc Hl]; subst. cbn [app]. apply scan_high; [exact Hc|]. apply IH. exact Hl.
Qed.

(** Raw contents of a literal that the scanner takes as one string. *)
Definition str_ok (raw : bytes) : Prop := forall r, scan_str (raw ++ x22 :: r) = Some (raw, r).
Lemma quote_ok s : str_ok (quote s).
Proof. intros r. apply scan_quote_go. constructor. Qed.

(** Characters that stand for themselves in a literal. *)
Definition simple (c : byte) : bool := ((32 <=? bval c) && (bval c <? 128) && negb (bval c =? 34) && negb (bval c =? 92))%N.
Lemma simple_ok raw : Forall (fun c => simple c = true) raw -> str_ok raw.
Proof.
  intros H r. induction H as [|c l Hc Hl IH]; [reflexivity|]. unfold simple in Hc.
  cbn [app scan_str]. rewrite !eqb_bval. change (bval x22) with 34%N. change (bval x5c) with 92%N.
  replace (bval c =? 34)%N with false by lia. replace (bval c =? 92)%N with false by lia.
  replace (bval c <? 32)%N with false by lia. rewrite IH. reflexivity.
Qed.
Lemma simple_unquote raw : Forall (fun c => simple c = true) raw -> unquote raw = raw.
Proof.
  unfold unquote. induction 1 as [|c l Hc Hl IH]; [reflexivity|]. unfold simple in Hc.
  cbn [unquote_go]. rewrite eqb_bval. change (bval x5c) with 92%N.
  replace (bval c =? 92)%N with false by lia. replace (bval c <? 128)%N with true by lia. rewrite IH. reflexivity.
Qed.

(** No control characters in a literal, so no line ends. *)
Definition no_control (l : bytes) : Prop := Forall (fun c => (32 <= bval c)%N) l.
Lemma hex_char_high c : is_hex c = true -> (32 <= bval c)%N.
Proof. unfold is_hex, hex_char. destruct c; intros H; try (intros K; discriminate K); discriminate H. Qed.
Lemma escape_high c : simple_escape c = true -> (32 <= bval c)%N.
Proof. destruct c; intros H; try (intros K; discriminate K); discriminate H. Qed.
Lemma scan_no_control l : forall a r, scan_str l = Some (a, r) -> no_control a.
Proof.
  induction l as [l IH] using (induction_ltof1 _ (@length byte)). unfold ltof in IH.
  intros a r H. destruct l as [|c l]; [discriminate H|]. cbn [scan_str] in H.
  destruct (Byte.eqb c x22); [injection H as <- <-; constructor|].
  destruct (Byte.eqb c x5c) eqn:Eb.
  - apply byte_eqb_eq in Eb. subst c. destruct l as [|e l]; [discriminate H|].
    destruct (simple_escape e) eqn:Ee.
    + destruct (scan_str l) as [[a' r']|] eqn:E; [|discriminate H]. cbn [prepend] in H. injection H as <- <-.
      constructor; [intros K; discriminate K|]. constructor; [apply escape_high, Ee|]. apply (IH l ltac:(cbn [length]; lia) _ _ E).
    + destruct (Byte.eqb e x75) eqn:Eu; [|discriminate H]. apply byte_eqb_eq in Eu. subst e.
      destruct l as [|h1 [|h2 [|h3 [|h4 l]]]]; try discriminate H.
      destruct (is_hex h1 && is_hex h2 && is_hex h3 && is_hex h4) eqn:Eh; [|discriminate H].
      destruct (scan_str l) as [[a' r']|] eqn:E; [|discriminate H]. cbn [prepend] in H. injection H as <- <-.
      repeat rewrite andb_true_iff in Eh. destruct Eh as (((H1 & H2) & H3) & H4).
      repeat (constructor; [first [apply hex_char_high; assumption | intros K; discriminate K]|]).
      apply (IH l ltac:(cbn [length]; lia) _ _ E).
  - destruct (N.ltb_spec (bval c) 32) as [L|L]; [discriminate H|].
    destruct (scan_str l) as [[a' r']|] eqn:E; [|discriminate H]. cbn [prepend] in H. injection H as <- <-.
    constructor; [exact L|]. apply (IH l ltac:(cbn [length]; lia) _ _ E).
Qed.
Lemma str_ok_no_control raw : str_ok raw -> no_control raw.
Proof. intros H. apply (scan_no_control _ _ _ (H [])). Qed.

(** ** Numbers *)
Lemma dec_go_top f : forall n, (0 < n)%N -> (n < 2 ^ N.of_nat f)%N -> last (dec_go (S f) n) x00 <> x30.
Proof.
  induction f as [|f IH]; intros n Hn H; [cbn in H; lia|]. cbn [dec_go]. destruct (N.ltb_spec n 10) as [L|L].
  - cbn [last]. intros E. apply (f_equal bval) in E. rewrite bval_digit in E by exact L. change (bval x30) with 48%N in E. lia.
  - specialize (IH (n / 10)%N).
    assert (A : (0 < n / 10)%N) by (clear IH H; Z.to_euclidean_division_equations; lia).
    assert (B : (n / 10 < 2 ^ N.of_nat f)%N).
    { rewrite Nat2N.inj_succ, N.pow_succ_r' in H. apply N.div_lt_upper_bound; lia. }
    specialize (IH A B). change (last (digit (n mod 10) :: dec_go (S f) (n / 10)) x00 <> x30).
    destruct (dec_go (S f) (n / 10)) as [|d l] eqn:E; [cbn [dec_go] in E; destruct (n / 10 <? 10)%N; discriminate E|exact IH].
Qed.
Lemma hd_rev l : hd x00 (rev l) = last l x00.
Proof.
  destruct l as [|a l] using rev_ind; [reflexivity|]. rewrite rev_app_distr, last_last. reflexivity.
Qed.
Lemma dec_top n : n = 0%N \/ hd x00 (dec n) <> x30.
Proof.
  destruct (N.eq_dec n 0) as [->|Hn]; [left; reflexivity|right]. unfold dec. rewrite hd_rev.
  apply dec_go_top; [lia|apply size_bound].
Qed.

(** What may follow a value: the end, a comma or a closing bracket. *)
Definition follows (r : bytes) : Prop := match r with [] => True | c :: _ => c = x2c \/ c = x5d \/ c = x7d end.
Lemma follows_frac r : follows r -> scan_frac r = Some ([], r) /\ scan_exp r = Some ([], r) /\
  match r with c :: _ => digit_char c = false | [] => True end.
Proof. destruct r as [|c r]; [repeat split|]. intros [ -> |[ -> | -> ]]; repeat split. Qed.

Definition num_ok (raw : bytes) : Prop :=
  (exists c t, raw = c :: t /\ (digit_char c = true \/ c = x2d)) /\
  forall r, follows r -> scan_num (raw ++ r) = Some (raw, r).

Lemma scan_int_dec n r : (match r with c :: _ => digit_char c = false | [] => True end) -> scan_int (dec n ++ r) = Some (dec n, r).
Proof.
  intros H. destruct (dec_top n) as [->|T]; [reflexivity|].
  pose proof (dec_digits n) as D. destruct (dec n) as [|c t] eqn:E; [exfalso; exact (dec_nonempty n E)|].
  cbn [hd] in T. cbn [app scan_int]. rewrite (proj2 (byte_eqb_neq c x30) T).
  change (c :: t ++ r) with ((c :: t) ++ r). rewrite (span_app (c :: t) r D H). reflexivity.
Qed.
Lemma decZ_ok z : num_ok (decZ z).
Proof.
  assert (D : forall n, exists c t, dec n = c :: t /\ digit_char c = true).
  { intros n. pose proof (dec_digits n) as D. destruct (dec n) as [|c t] eqn:E; [exfalso; exact (dec_nonempty n E)|].
    exists c, t. split; [reflexivity|]. inversion D; assumption. }
  unfold decZ. split.
  - destruct (z <? 0)%Z; [exists x2d; eexists; split; [reflexivity|right; reflexivity]|].
    destruct (D (Z.to_N z)) as (c & t & E & C). exists c, t. auto.
  - intros r F. destruct (follows_frac r F) as (F1 & F2 & F3). destruct (z <? 0)%Z; unfold scan_num.
    + cbn [app]. change (Byte.eqb x2d x2d) with true. cbv iota. rewrite (scan_int_dec _ r F3), F1, F2, !app_nil_r. reflexivity.
    + destruct (D (Z.to_N z)) as (c & t & E & C). pose proof (scan_int_dec (Z.to_N z) r F3) as I. rewrite E in *. cbn [app] in *.
      assert (Byte.eqb c x2d = false) as ->.
      { apply byte_eqb_neq. intros ->. discriminate C. }
      rewrite I, F1, F2, !app_nil_r. reflexivity.
Qed.

Lemma parse_int_decZ lo hi z : (lo <= z <= hi)%Z -> parse_int lo hi (decZ z) = Some z.
Proof.
  intros B. unfold parse_int, decZ. destruct (Z.ltb_spec z 0) as [L|L].
  - change (Byte.eqb x2d x2d) with true. cbv iota. pose proof (uint_digits _ (dec_digits (Z.to_N (- z)))) as U. rewrite vald_dec in U.
    destruct (dec (Z.to_N (- z))) as [|c t] eqn:E; [exfalso; exact (dec_nonempty _ E)|]. rewrite U.
    replace (- Z.of_N (Z.to_N (- z)))%Z with z by lia. replace ((lo <=? z)%Z && (z <=? hi)%Z) with true by lia. reflexivity.
  - pose proof (dec_digits (Z.to_N z)) as D. pose proof (uint_digits _ (dec_digits (Z.to_N z))) as U. rewrite vald_dec in U.
    destruct (dec (Z.to_N z)) as [|c t] eqn:E; [exfalso; exact (dec_nonempty _ E)|].
    assert (Byte.eqb c x2d = false) as ->.
    { apply byte_eqb_neq. intros ->. inversion D as [|? ? D1 ?]. discriminate D1. }
    rewrite U. replace (Z.of_N (Z.to_N z)) with z by lia. replace ((lo <=? z)%Z && (z <=? hi)%Z) with true by lia. reflexivity.
Qed.
Lemma parse_unsigned_dec hi n : (Z.of_N n <= hi)%Z -> parse_unsigned hi (dec n) = Some (Z.of_N n).
Proof.
  intros B. unfold parse_unsigned. pose proof (uint_digits _ (dec_digits n)) as U. rewrite vald_dec in U.
  destruct (dec n) as [|c t] eqn:E; [exfalso; exact (dec_nonempty _ E)|]. rewrite U.
  replace (Z.of_N n <=? hi)%Z with true by lia. reflexivity.
Qed.
Lemma digits_high l : digits l -> no_control l.
Proof. intros H. eapply Forall_impl; [|exact H]. intros c. cbv beta. unfold digit_char. lia. Qed.
Lemma decZ_high z : no_control (decZ z).
Proof.
  unfold decZ. destruct (z <? 0)%Z; [constructor; [intros K; discriminate K|]|]; apply digits_high; exact (dec_digits _).
Qed.

(** ** Parsing a rendered text *)
(** Induction over JSON texts. *)
Lemma json_rect' (P : json -> Prop) (Hn : P JNull) (Hb : forall b, P (JBool b)) (Hm : forall s, P (JNum s)) (Hs : forall s, P (JStr s))
  (Ha : forall l, Forall P l -> P (JArr l)) (Ho : forall l, Forall (fun kv => P (snd kv)) l -> P (JObj l)) : forall j, P j.
Proof.
  fix IH 1. intros [ |b|s|s|l|l]; [exact Hn|apply Hb|apply Hm|apply Hs| |].
  - apply Ha. induction l as [|j l IHl]; constructor; [apply IH|exact IHl].
  - apply Ho. induction l as [|[k j] l IHl]; constructor; [apply IH|exact IHl].
Qed.

(** Texts that can be rendered. *)
Inductive wf : json -> Prop :=
| wf_null : wf JNull
| wf_bool b : wf (JBool b)
| wf_num s : num_ok s -> wf (JNum s)
| wf_str s : str_ok s -> wf (JStr s)
| wf_arr l : Forall wf l -> wf (JArr l)
| wf_obj l : Forall (fun kv => str_ok (fst kv) /\ wf (snd kv)) l -> wf (JObj l).

(** Fuel needed. *)
Fixpoint need (j : json) : nat :=
  match j with
  | JArr l => S (fold_right (fun e n => S (Nat.max (need e) n)) 0 l)
  | JObj l => S (fold_right (fun kv n => S (Nat.max (need (snd kv)) n)) 0 l)
  | _ => 1
  end.
Definition member (kv : bytes * json) : bytes := in_quotes (fst kv) ++ x3a :: render (snd kv).

Lemma member_length kv : length (member kv) = length (fst kv) + 3 + length (render (snd kv)).
Proof. unfold member, in_quotes. cbn [length app]. rewrite app_length, app_length. cbn [length]. lia. Qed.

Lemma need_length j : wf j -> need j <= length (render j).
Proof.
  induction j as [ |b|s|s|l IH|l IH] using json_rect'; intros W; inversion W as [|?|? H|?|? H|? H]; subst.
  - cbn. lia.
  - destruct b; cbn; lia.
  - destruct H as [(c & t & -> & _) _]. cbn. lia.
  - unfold need, render, in_quotes. cbn [length]. lia.
  - cbn [need render length]. rewrite app_length. cbn [length].
    enough (fold_right (fun e n => S (Nat.max (need e) n)) 0 l <= length (join x2c (map render l)) + 1) by lia.
    clear W. induction l as [|e l IHl]; [cbn; lia|]. inversion IH as [|? ? I1 I2]; subst. inversion H as [|? ? H1 H2]; subst.
    specialize (IHl I2 H2). specialize (I1 H1). cbn [fold_right map]. destruct l as [|e2 l]; [cbn [fold_right map join] in *; lia|].
    change (join x2c (render e :: map render (e2 :: l))) with (render e ++ x2c :: join x2c (map render (e2 :: l))).
    rewrite app_length. cbn [length]. lia.
  - cbn [need render length]. rewrite app_length. cbn [length].
    change (fun kv : bytes * json => in_quotes (fst kv) ++ x3a :: render (snd kv)) with member.
    change (@map (bytes * json) (list byte) member l) with (@map (bytes * json) bytes member l).
    enough (fold_right (fun kv n => S (Nat.max (need (snd kv)) n)) 0 l <= length (join x2c (map member l)) + 1) by lia.
    clear W. induction l as [|e l IHl]; [cbn; lia|]. inversion IH as [|? ? I1 I2]; subst. inversion H as [|? ? H1 H2]; subst.
    specialize (IHl I2 H2). specialize (I1 (proj2 H1)). pose proof (member_length e) as M. cbn [fold_right map].
    destruct l as [|e2 l]; [cbn [fold_right map join] in *; lia|].
    change (join x2c (member e :: map member (e2 :: l))) with (member e ++ x2c :: join x2c (map member (e2 :: l))).
    rewrite app_length. cbn [length]. lia.
Qed.

(** The first character of a rendered text is no white space and no bracket
    that closes. *)
Lemma render_head j : wf j -> exists c t, render j = c :: t /\ is_space c = false /\ c <> x5d /\ c <> x7d.
Proof.
  intros W. inversion W as [|b|s H|s H|l H|l H]; subst.
  - eexists _, _. split; [reflexivity|]. repeat split; discriminate.
  - destruct b; (eexists _, _; split; [reflexivity|]; repeat split; discriminate).
  - destruct H as [(c & t & -> & C) _]. exists c, t. split; [reflexivity|].
    destruct C as [C| ->]; [|repeat split; discriminate]. destruct c; try discriminate C; repeat split; discriminate.
  - eexists _, _. split; [reflexivity|]. repeat split; discriminate.
  - eexists _, _. split; [reflexivity|]. repeat split; discriminate.
  - eexists _, _. split; [reflexivity|]. repeat split; discriminate.
Qed.

Definition parses (j : json) : Prop := forall n r, need j <= n -> follows r -> value n (render j ++ r) = Some (j, r).

Lemma skip_head c r : is_space c = false -> skip_ws (c :: r) = c :: r.
Proof. intros H. cbn [skip_ws]. rewrite H. reflexivity. Qed.

Lemma value_num s n r : num_ok s -> follows r -> value (S n) (s ++ r) = Some (JNum s, r).
Proof.
  intros [(c & t & -> & C) H] F. specialize (H r F). cbn [app] in *. cbn [value].
  rewrite skip_head by (destruct C as [C| ->]; [destruct c; try discriminate C; reflexivity|reflexivity]).
  rewrite !eqb_bval.
  assert (B : (bval c = 45 \/ 48 <= bval c <= 57)%N) by (destruct C as [C| ->]; [unfold digit_char in C; lia|left; reflexivity]).
  change (bval x22) with 34%N. change (bval x5b) with 91%N. change (bval x7b) with 123%N.
  change (bval x6e) with 110%N. change (bval x74) with 116%N. change (bval x66) with 102%N.
  replace (bval c =? 34)%N with false by lia. replace (bval c =? 91)%N with false by lia. replace (bval c =? 123)%N with false by lia.
  replace (bval c =? 110)%N with false by lia. replace (bval c =? 116)%N with false by lia. replace (bval c =? 102)%N with false by lia.
  rewrite H. reflexivity.
Qed.

Lemma elements_parse l : l <> [] -> Forall wf l -> Forall parses l -> forall n r,
  fold_right (fun e n => S (Nat.max (need e) n)) 0 l <= n ->
  elements n (join x2c (map render l) ++ x5d :: r) = Some (l, r).
Proof.
  induction l as [|e l IH]; [contradiction|]. intros _ W P n r L.
  inversion W as [|? ? W1 W2]; subst. inversion P as [|? ? P1 P2]; subst. cbn [fold_right] in L.
  destruct n as [|n]; [lia|]. cbn [elements]. destruct l as [|e2 l].
  - cbn [map join]. rewrite (P1 n (x5d :: r)) by (cbn [fold_right] in L; try lia; right; left; reflexivity).
    rewrite skip_head by reflexivity. reflexivity.
  - change (join x2c (map render (e :: e2 :: l))) with (render e ++ x2c :: join x2c (map render (e2 :: l))).
    rewrite <- app_assoc. cbn [app]. rewrite (P1 n (x2c :: _)) by (try lia; left; reflexivity).
    rewrite skip_head by reflexivity. change (Byte.eqb x2c x5d) with false. change (Byte.eqb x2c x2c) with true. cbv iota.
    rewrite (IH ltac:(discriminate) W2 P2 n r) by lia. reflexivity.
Qed.
Lemma members_parse l : l <> [] -> Forall (fun kv => str_ok (fst kv) /\ wf (snd kv)) l -> Forall (fun kv => parses (snd kv)) l -> forall n r,
  fold_right (fun kv n => S (Nat.max (need (snd kv)) n)) 0 l <= n ->
  members n (join x2c (map member l) ++ x7d :: r) = Some (l, r).
Proof.
  induction l as [|[k e] l IH]; [contradiction|]. intros _ W P n r L.
  inversion W as [|? ? [W0 W1] W2]; subst. inversion P as [|? ? P1 P2]; subst. cbn [fold_right fst snd] in *.
  destruct n as [|n]; [lia|]. cbn [members].
  assert (M : forall q, member (k, e) ++ q = x22 :: k ++ x22 :: x3a :: render e ++ q).
  { intros q. unfold member, in_quotes. cbn [fst snd app]. rewrite <- !app_assoc. cbn [app]. rewrite <- ?app_assoc. reflexivity. }
  destruct l as [|e2 l].
  - cbn [map join]. rewrite M, skip_head by reflexivity. change (Byte.eqb x22 x22) with true. cbv iota. rewrite W0.
    rewrite skip_head by reflexivity. change (Byte.eqb x3a x3a) with true. cbv iota.
    rewrite (P1 n (x7d :: r)) by (cbn [fold_right] in L; try lia; right; right; reflexivity).
    rewrite skip_head by reflexivity. reflexivity.
  - change (join x2c (map member ((k, e) :: e2 :: l))) with (member (k, e) ++ x2c :: join x2c (map member (e2 :: l))).
    rewrite <- app_assoc. cbn [app]. rewrite M, skip_head by reflexivity. change (Byte.eqb x22 x22) with true. cbv iota. rewrite W0.
    rewrite skip_head by reflexivity. change (Byte.eqb x3a x3a) with true. cbv iota.
    rewrite (P1 n (x2c :: _)) by (try lia; left; reflexivity).
    rewrite skip_head by reflexivity. change (Byte.eqb x2c x7d) with false. change (Byte.eqb x2c x2c) with true. cbv iota.
    rewrite (IH ltac:(discriminate) W2 P2 n r) by lia. reflexivity.
Qed.

Lemma value_render j : wf j -> parses j.
Proof.
  induction j as [ |b|s|s|l IH|l IH] using json_rect'; intros W; inversion W as [|?|? H|? H|? H|? H]; subst; intros n r L F;
    (destruct n as [|n]; [cbn in L; lia|]).
  - reflexivity.
  - destruct b; reflexivity.
  - apply value_num; assumption.
  - cbn [render]. unfold in_quotes. cbn [app value]. rewrite skip_head by reflexivity. change (Byte.eqb x22 x22) with true. cbv iota.
    rewrite <- app_assoc. cbn [app]. rewrite H. reflexivity.
  - cbn [render app value]. rewrite skip_head by reflexivity. change (Byte.eqb x5b x22) with false. change (Byte.eqb x5b x5b) with true. cbv iota.
    rewrite <- app_assoc. cbn [app]. destruct l as [|e l]; [reflexivity|].
    assert (Hd : exists c t, join x2c (map render (e :: l)) ++ x5d :: r = c :: t /\ is_space c = false /\ c <> x5d).
    { inversion H as [|? ? H1 H2]; subst. destruct (render_head e H1) as (c & t & E & S & N & _).
      destruct l; cbn [map join]; rewrite E; cbn [app]; eauto. }
    destruct Hd as (c & t & E & S & N). rewrite E, skip_head by exact S. rewrite (proj2 (byte_eqb_neq c x5d) N). rewrite <- E.
    rewrite elements_parse; [reflexivity|discriminate|exact H| |cbn [need] in L; lia].
    clear -IH H. rewrite Forall_forall in *. intros x Hx. apply (IH x Hx), H, Hx.
  - cbn [render app value]. rewrite skip_head by reflexivity. change (Byte.eqb x7b x22) with false.
    change (Byte.eqb x7b x5b) with false. change (Byte.eqb x7b x7b) with true. cbv iota.
    rewrite <- app_assoc. cbn [app]. destruct l as [|e l]; [reflexivity|].
    change (fun kv : bytes * json => in_quotes (fst kv) ++ x3a :: render (snd kv)) with member.
    change (@map (bytes * json) (list byte) member (e :: l)) with (@map (bytes * json) bytes member (e :: l)).
    assert (Hd : exists t, join x2c (map member (e :: l)) ++ x7d :: r = x22 :: t).
    { destruct l; cbn [map join]; unfold member, in_quotes; cbn [app]; eauto. }
    destruct Hd as (t & E). rewrite E, skip_head by reflexivity. change (Byte.eqb x22 x7d) with false. cbv iota. rewrite <- E.
    rewrite members_parse; [reflexivity|discriminate|exact H| |cbn [need] in L; lia].
    clear -IH H. rewrite Forall_forall in *. intros x Hx. apply (IH x Hx), H, Hx.
Qed.

Lemma parse_render j : wf j -> (depth j <= max_depth)%N -> parse (render j) = Some j.
Proof.
  intros W D. unfold parse. pose proof (value_render j W (S (length (render j))) []) as H.
  rewrite app_nil_r in H. rewrite H; [|pose proof (need_length j W); lia|exact I]. cbn [skip_ws]. apply N.leb_le in D. rewrite D. reflexivity.
Qed.

(** ** No control characters *)
Lemma join_high l : Forall no_control l -> no_control (join x2c l).
Proof.
  induction 1 as [|a l Ha Hl IH]; [constructor|]. destruct l as [|b l]; [exact Ha|].
  change (join x2c (a :: b :: l)) with (a ++ x2c :: join x2c (b :: l)). apply Forall_app. split; [exact Ha|].
  constructor; [intros K; discriminate K|exact IH].
Qed.
Fixpoint nums_high (j : json) : Prop :=
  match j with
  | JNum s => no_control s
  | JArr l => fold_right (fun e p => nums_high e /\ p) True l
  | JObj l => fold_right (fun kv p => nums_high (snd kv) /\ p) True l
  | _ => True
  end.
Lemma quotes_high s : no_control s -> no_control (in_quotes s).
Proof.
  intros H. unfold in_quotes. constructor; [intros K; discriminate K|]. apply Forall_app. split; [exact H|].
  constructor; [intros K; discriminate K|constructor].
Qed.
Lemma render_high j : wf j -> nums_high j -> no_control (render j).
Proof.
  induction j as [ |b|s|s|l IH|l IH] using json_rect'; intros W N; inversion W as [|?|? H|? H|? H|? H]; subst.
  - repeat (constructor; [intros K; discriminate K|]). constructor.
  - destruct b; repeat (constructor; [intros K; discriminate K|]); constructor.
  - exact N.
  - apply quotes_high, str_ok_no_control, H.
  - cbn [render]. constructor; [intros K; discriminate K|]. apply Forall_app. split; [|constructor; [intros K; discriminate K|constructor]].
    apply join_high. cbn [nums_high] in N. clear W. induction l as [|e l IHl]; [constructor|].
    inversion IH; subst. inversion H; subst. destruct N as [N1 N2]. constructor; auto.
  - cbn [render]. constructor; [intros K; discriminate K|]. apply Forall_app. split; [|constructor; [intros K; discriminate K|constructor]].
    apply join_high. cbn [nums_high] in N. clear W. induction l as [|e l IHl]; [constructor|].
    inversion IH as [|? ? I1 I2]; subst. inversion H as [|? ? [H0 H1] H2]; subst. destruct N as [N1 N2]. constructor; [|exact (IHl I2 N2 H2)].
    apply Forall_app. split; [apply quotes_high, str_ok_no_control, H0|]. constructor; [intros K; discriminate K|exact (I1 H1 N1)].
Qed.
