(** The parser accepts exactly the texts of the JSON grammar. *)
From Coq Require Import Strings.String List NArith ZArith Bool Lia ZifyBool ZifyN ZifyNat.
From Verif Require Import GoBase GoBaseFacts Rfc3339 Json SpecJson SpecGrammar JsonFacts.
Import ListNotations.
Local Open Scope list_scope.

(** ** White space *)
Lemma space_iff c : is_space c = true <-> In c [x20; x09; x0a; x0d].
Proof.
  unfold is_space. rewrite !orb_true_iff, !byte_eqb_eq. cbn [In]. split; intros H.
  - destruct H as [[[->| ->]| ->]| ->]; tauto.
  - destruct H as [<-|[<-|[<-|[<-|[]]]]]; tauto.
Qed.
Lemma skip_blank w : blank w -> forall r, skip_ws (w ++ r) = skip_ws r.
Proof.
  induction w as [|c w IH]; intros H r; [reflexivity|]. inversion H as [|? ? H1 H2]; subst. cbn [app skip_ws].
  rewrite (proj2 (space_iff c) H1). apply IH, H2.
Qed.
Lemma skip_split l : exists w, blank w /\ l = w ++ skip_ws l.
Proof.
  induction l as [|c l (w & W & E)]; [exists []; split; [constructor|reflexivity]|]. cbn [skip_ws]. destruct (is_space c) eqn:S.
  - exists (c :: w). split; [constructor; [apply space_iff, S|exact W]|cbn [app]; congruence].
  - exists []. split; [constructor|reflexivity].
Qed.
Lemma skip_space c r : is_space c = false -> skip_ws (c :: r) = c :: r.
Proof. intros H. cbn [skip_ws]. rewrite H. reflexivity. Qed.

(** ** Strings *)
Lemma hex_iff c : is_hex c = true <-> hex c.
Proof.
  unfold is_hex, hex_char, hex. generalize (bval c). intros n.
  destruct ((48 <=? n) && (n <=? 57))%N eqn:A; [split; [lia|reflexivity]|].
  destruct ((97 <=? n) && (n <=? 102))%N eqn:B; [split; [lia|reflexivity]|].
  destruct ((65 <=? n) && (n <=? 70))%N eqn:C; [split; [lia|reflexivity]|]. split; [discriminate|lia].
Qed.
Lemma escape_iff c : simple_escape c = true <-> In c (x22 :: str "\/bfnrt").
Proof. destruct c; vm_compute; split; intros H; try reflexivity; try discriminate H; intuition discriminate. Qed.
Lemma scan_str_sound n : forall l s r, length l <= n -> scan_str l = Some (s, r) -> l = s ++ x22 :: r /\ chars s.
Proof.
  induction n as [|n IH]; intros l s r L H.
  - destruct l; [discriminate H|cbn in L; lia].
  - destruct l as [|c l]; [discriminate H|]. cbn [scan_str] in H. cbn [length] in L. destruct (Byte.eqb c x22) eqn:Q.
    { injection H as <- <-. apply byte_eqb_eq in Q as ->. split; [reflexivity|constructor]. }
    assert (P : forall p x, prepend p x = Some (s, r) -> exists a, x = Some (a, r) /\ s = p ++ a).
    { intros p [[a b]|] E; [|discriminate E]. injection E as <- <-. eauto. }
    destruct (Byte.eqb c x5c) eqn:B.
    + apply byte_eqb_eq in B as ->. destruct l as [|e l]; [discriminate H|]. destruct (simple_escape e) eqn:Se.
      * apply P in H as (a & H & ->). apply IH in H as [-> H]; [|cbn in L; lia]. split; [reflexivity|]. apply escape_iff in Se. constructor; assumption.
      * destruct (Byte.eqb e x75) eqn:U; [|discriminate H]. apply byte_eqb_eq in U as ->.
        destruct l as [|h1 [|h2 [|h3 [|h4 l]]]]; try discriminate H.
        destruct (is_hex h1 && is_hex h2 && is_hex h3 && is_hex h4) eqn:X; [|discriminate H]. rewrite !andb_true_iff, !hex_iff in X.
        apply P in H as (a & H & ->). apply IH in H as [-> H]; [|cbn in L; lia]. split; [reflexivity|]. apply chars_unicode; tauto.
    + destruct (bval c <? 32)%N eqn:K; [discriminate H|]. apply P in H as (a & H & ->). apply IH in H as [-> H]; [|lia].
      split; [reflexivity|]. apply byte_eqb_neq in Q, B. apply chars_plain; try assumption. lia.
Qed.
Lemma scan_str_complete s : chars s -> forall r, scan_str (s ++ x22 :: r) = Some (s, r).
Proof.
  induction 1 as [|c s H Q B _ IH|c s H _ IH|a b c d s A B C D _ IH]; intros r.
  - reflexivity.
  - cbn [app scan_str]. rewrite (proj2 (byte_eqb_neq _ _) Q), (proj2 (byte_eqb_neq _ _) B), IH.
    destruct (N.ltb_spec (bval c) 32); [lia|reflexivity].
  - cbn [app scan_str]. change (Byte.eqb x5c x22) with false. change (Byte.eqb x5c x5c) with true. cbv iota.
    rewrite (proj2 (escape_iff c) H), IH. reflexivity.
  - cbn [app scan_str]. change (Byte.eqb x5c x22) with false. change (Byte.eqb x5c x5c) with true. change (simple_escape x75) with false.
    change (Byte.eqb x75 x75) with true. cbv iota. rewrite !(proj2 (hex_iff _)) by assumption. cbn [andb]. rewrite IH. reflexivity.
Qed.

(** ** Numbers *)
Lemma digit_iff c : digit_char c = true <-> digit c.
Proof. unfold digit_char, digit. lia. Qed.
Lemma span_sound l : forall ds r, span_digits l = (ds, r) -> l = ds ++ r /\ Forall digit ds.
Proof.
  induction l as [|c l IH]; intros ds r H; cbn [span_digits] in H.
  - injection H as <- <-. split; [reflexivity|constructor].
  - destruct (digit_char c) eqn:D; [|injection H as <- <-; split; [reflexivity|constructor]].
    destruct (span_digits l) as [a b]. injection H as <- <-. destruct (IH _ _ eq_refl) as [-> F]. split; [reflexivity|].
    constructor; [apply digit_iff, D|exact F].
Qed.
(** What cannot be part of a number *)
Definition no_digit (r : bytes) : Prop := match r with [] => True | c :: _ => ~ digit c end.
Definition ends (r : bytes) : Prop := match r with [] => True | c :: _ => ~ digit c /\ ~ In c (str ".eE") end.
Lemma span_complete ds : Forall digit ds -> forall r, no_digit r -> span_digits (ds ++ r) = (ds, r).
Proof.
  induction 1 as [|c ds H _ IH]; intros r R.
  - destruct r as [|c r]; [reflexivity|]. cbn [app span_digits]. destruct (digit_char c) eqn:D; [|reflexivity]. apply digit_iff in D. contradiction.
  - cbn [app span_digits]. rewrite (proj2 (digit_iff c) H), (IH r R). reflexivity.
Qed.

Lemma scan_int_sound l i r : scan_int l = Some (i, r) -> l = i ++ r /\ whole i.
Proof.
  destruct l as [|c l]; [discriminate|]. cbn [scan_int]. destruct (Byte.eqb c x30) eqn:Z.
  - intros [= <- <-]. apply byte_eqb_eq in Z as ->. split; [reflexivity|left; reflexivity].
  - destruct (span_digits (c :: l)) as [[|d ds] r'] eqn:S; [discriminate|]. intros [= <- <-]. apply span_sound in S as [S F].
    split; [exact S|]. right. exists d, ds. split; [reflexivity|]. inversion F as [|? ? D F']; subst. split; [|exact F'].
    injection S as -> _. apply byte_eqb_neq in Z. unfold digit in D. destruct (N.eq_dec (bval d) 48) as [E|E]; [|lia].
    exfalso. apply Z. apply bval_inj. exact E.
Qed.
Lemma scan_int_complete i : whole i -> forall r, (i = str "0" \/ no_digit r) -> scan_int (i ++ r) = Some (i, r).
Proof.
  intros [->|(c & t & -> & C & F)] r R; [reflexivity|]. cbn [app scan_int].
  assert (Byte.eqb c x30 = false) as -> by (apply byte_eqb_neq; intros ->; apply (proj1 C); reflexivity).
  destruct R as [R|R]; [injection R as -> _; exfalso; apply (proj1 C); reflexivity|].
  change (c :: t ++ r) with ((c :: t) ++ r). rewrite span_complete; [reflexivity| |exact R]. constructor; [unfold digit; lia|exact F].
Qed.
Lemma scan_frac_sound l f r : scan_frac l = Some (f, r) -> l = f ++ r /\ fraction f.
Proof.
  assert (K : l = [] ++ l /\ fraction []) by (split; [reflexivity|left; reflexivity]).
  unfold scan_frac. destruct l as [|c l]; [intros [= <- <-]; exact K|].
  destruct (Byte.eqb c x2e) eqn:E.
  - apply byte_eqb_eq in E as ->. destruct (span_digits l) as [[|d ds] r'] eqn:S; [discriminate|]. intros [= <- <-]. apply span_sound in S as [-> F].
    split; [reflexivity|]. right. exists (d :: ds). split; [reflexivity|]. split; [discriminate|exact F].
  - destruct c; try (intros [= <- <-]; exact K). discriminate E.
Qed.
Lemma scan_frac_none r : (match r with [] => True | c :: _ => c <> x2e end) -> scan_frac r = Some ([], r).
Proof. destruct r as [|c r]; [reflexivity|]. destruct c; try reflexivity. intros H. contradiction H. reflexivity. Qed.
Lemma scan_frac_complete f : fraction f -> forall r, no_digit r -> (f = [] -> match r with [] => True | c :: _ => c <> x2e end) -> scan_frac (f ++ r) = Some (f, r).
Proof.
  intros [->|(d & -> & D & F)] r R N; [apply scan_frac_none, N, eq_refl|]. cbn [app scan_frac]. rewrite (span_complete d F r R).
  destruct d; [contradiction|reflexivity].
Qed.
Lemma exp_char c : Byte.eqb c x65 || Byte.eqb c x45 = true <-> In c (str "eE").
Proof. rewrite orb_true_iff, !byte_eqb_eq. cbn. split; intros [H|H]; auto. destruct H as [H|[]]. auto. Qed.
Lemma scan_exp_sound l e r : scan_exp l = Some (e, r) -> l = e ++ r /\ exponent e.
Proof.
  destruct l as [|c l]; [intros [= <- <-]; split; [reflexivity|left; reflexivity]|]. cbn [scan_exp].
  destruct (Byte.eqb c x65 || Byte.eqb c x45) eqn:E; [|intros [= <- <-]; split; [reflexivity|left; reflexivity]].
  apply exp_char in E.
  set (p := match l with s :: r1 => if Byte.eqb s x2b || Byte.eqb s x2d then ([s], r1) else ([], l) | [] => ([], []) end).
  assert (P : l = fst p ++ snd p /\ (fst p = [] \/ fst p = str "+" \/ fst p = str "-")).
  { unfold p. destruct l as [|s l]; [split; [reflexivity|left; reflexivity]|]. destruct (Byte.eqb s x2b || Byte.eqb s x2d) eqn:S; [|split; [reflexivity|left; reflexivity]].
    split; [reflexivity|]. apply orb_true_iff in S as [S|S]; apply byte_eqb_eq in S as ->; right; [left|right]; reflexivity. }
  clearbody p. destruct p as [sg r1]. cbn [fst snd] in P. destruct P as [-> P].
  destruct (span_digits r1) as [[|d ds] r'] eqn:S; [discriminate|]. intros [= <- <-]. apply span_sound in S as [-> F].
  split; [cbn [app]; rewrite <- app_assoc; reflexivity|]. right. exists c, sg, (d :: ds). split; [reflexivity|]. split; [exact E|]. split; [exact P|]. split; [discriminate|exact F].
Qed.
Lemma scan_exp_complete e : exponent e -> forall r, ends r -> scan_exp (e ++ r) = Some (e, r).
Proof.
  intros [->|(c & s & d & -> & C & S & D & F)] r R.
  - destruct r as [|c r]; [reflexivity|]. cbn [app scan_exp]. destruct (Byte.eqb c x65 || Byte.eqb c x45) eqn:E; [|reflexivity].
    exfalso. apply exp_char in E. apply (proj2 R). right. exact E.
  - assert (N : no_digit r) by (destruct r; [exact I|apply R]). cbn [app]. rewrite <- app_assoc.
    cbn [scan_exp]. rewrite (proj2 (exp_char c) C). pose proof (span_complete d F r N) as Sp.
    destruct S as [->|[->| ->]].
    + cbn [app] in *. destruct d as [|c1 d]; [contradiction|]. cbn [app] in *.
      assert (Byte.eqb c1 x2b || Byte.eqb c1 x2d = false) as ->.
      { inversion F as [|? ? D1 _]; subst. apply orb_false_iff. split; apply byte_eqb_neq; intros ->; vm_compute in D1; destruct D1 as [D1 _]; apply D1; reflexivity. }
      rewrite Sp. reflexivity.
    + change (str "+") with [x2b]; cbn [app]. change (Byte.eqb x2b x2b || Byte.eqb x2b x2d) with true. cbv beta iota. rewrite Sp. destruct d; [contradiction|reflexivity].
    + change (str "-") with [x2d]; cbn [app]. change (Byte.eqb x2d x2b || Byte.eqb x2d x2d) with true. cbv beta iota. rewrite Sp. destruct d; [contradiction|reflexivity].
Qed.

Lemma scan_num_sound l s r : scan_num l = Some (s, r) -> l = s ++ r /\ number s.
Proof.
  unfold scan_num.
  set (p := match l with c :: r => if Byte.eqb c x2d then ([x2d], r) else ([], l) | [] => ([], []) end).
  assert (P : l = fst p ++ snd p /\ (fst p = [] \/ fst p = str "-")).
  { unfold p. destruct l as [|c l]; [split; [reflexivity|left; reflexivity]|]. destruct (Byte.eqb c x2d) eqn:S; [|split; [reflexivity|left; reflexivity]].
    apply byte_eqb_eq in S as ->. split; [reflexivity|right; reflexivity]. }
  clearbody p. destruct p as [sg r0]. cbn [fst snd] in P. destruct P as [-> P].
  destruct (scan_int r0) as [[i r1]|] eqn:I; [|discriminate]. destruct (scan_frac r1) as [[f r2]|] eqn:F; [|discriminate].
  destruct (scan_exp r2) as [[e r3]|] eqn:E; [|discriminate]. intros [= <- <-].
  apply scan_int_sound in I as [-> I]. apply scan_frac_sound in F as [-> F]. apply scan_exp_sound in E as [-> E].
  split; [rewrite <- !app_assoc; reflexivity|]. exists sg, i, f, e. auto.
Qed.
Lemma whole_head i : whole i -> exists c t, i = c :: t /\ digit c.
Proof. intros [->|(c & t & -> & C & _)]; [eexists _, _; split; [reflexivity|]; unfold digit; vm_compute; intuition discriminate|]. exists c, t. split; [reflexivity|unfold digit; lia]. Qed.
Lemma frac_head f r : fraction f -> no_digit r -> no_digit (f ++ r).
Proof. intros [->|(d & -> & _)] R; [exact R|]. cbn. unfold digit. vm_compute. intros [H _]. apply H. reflexivity. Qed.
Lemma exp_head e r : exponent e -> ends r -> no_digit (e ++ r) /\ (match e ++ r with [] => True | c :: _ => c <> x2e end).
Proof.
  intros [->|(c & s & d & -> & C & _)] R.
  - destruct r as [|c r]; [split; exact I|]. destruct R as [R1 R2]. split; [exact R1|]. intros ->. apply R2. left. reflexivity.
  - cbn in C. destruct C as [<-|[<-|[]]]; (split; [|discriminate]); cbn; unfold digit; vm_compute; intros [_ H]; apply H; reflexivity.
Qed.
Lemma scan_num_complete s : number s -> forall r, ends r -> scan_num (s ++ r) = Some (s, r).
Proof.
  intros (sg & i & f & e & -> & Sg & I & F & E) r R. rewrite <- !app_assoc.
  destruct (exp_head e r E R) as [E1 E2]. pose proof (frac_head f _ F E1) as F1.
  assert (K : scan_num (sg ++ i ++ f ++ e ++ r) = match scan_int (i ++ f ++ e ++ r) with
     | Some (i, r1) => match scan_frac r1 with Some (f, r2) => match scan_exp r2 with Some (e, r3) => Some (sg ++ i ++ f ++ e, r3) | None => None end | None => None end
     | None => None end).
  { destruct Sg as [->| ->]; [|reflexivity]. destruct (whole_head i I) as (c & t & -> & D). unfold scan_num. cbn [app].
    assert (Byte.eqb c x2d = false) as -> by (apply byte_eqb_neq; intros ->; vm_compute in D; destruct D as [D _]; apply D; reflexivity). reflexivity. }
  rewrite K, (scan_int_complete i I _ (or_intror F1)), (scan_frac_complete f F _ E1 (fun _ => E2)), (scan_exp_complete e E r R). reflexivity.
Qed.
Lemma number_head s : number s -> exists c t, s = c :: t /\ (digit c \/ c = x2d).
Proof.
  intros (sg & i & f & e & -> & Sg & I & _). destruct (whole_head i I) as (c & t & -> & D).
  destruct Sg as [->| ->]; eexists _, _; (split; [reflexivity|]); auto.
Qed.

(** ** Values *)
Lemma strip_sound p : forall l r, strip_prefix p l = Some r -> l = p ++ r.
Proof.
  induction p as [|a p IH]; intros l r H; cbn [strip_prefix] in H; [injection H as ->; reflexivity|].
  destruct l as [|b l]; [discriminate|]. destruct (Byte.eqb a b) eqn:E; [|discriminate]. apply byte_eqb_eq in E as ->. rewrite (IH _ _ H). reflexivity.
Qed.
Lemma literal_sound word v l j r : literal word v l = Some (j, r) -> j = v /\ l = word ++ r.
Proof. unfold literal. destruct (strip_prefix word l) eqn:E; [|discriminate]. intros [= <- <-]. split; [reflexivity|apply strip_sound, E]. Qed.

Lemma value_sound n :
  (forall l j r, value n l = Some (j, r) -> exists w b, l = w ++ b ++ r /\ blank w /\ text j b) /\
  (forall l vs r, elements n l = Some (vs, r) -> exists b, l = b ++ x5d :: r /\ items vs b) /\
  (forall l ms r, members n l = Some (ms, r) -> exists b, l = b ++ x7d :: r /\ pairs ms b).
Proof.
  induction n as [|n (IHv & IHe & IHm)]; [repeat split; discriminate|].
  assert (Sp : forall l v r, value n l = Some (v, r) -> exists b, l = b ++ skip_ws r /\ spaced v b).
  { intros l v r H. destruct (IHv _ _ _ H) as (w & b & -> & W & T). destruct (skip_split r) as (w' & W' & E').
    exists (w ++ b ++ w'). split; [rewrite <- !app_assoc, <- E'; reflexivity|constructor; assumption]. }
  split; [|split].
  - intros l j r H. cbn [value] in H. destruct (skip_split l) as (w & W & E). destruct (skip_ws l) as [|c t]; [discriminate|].
    enough (exists b, c :: t = b ++ r /\ text j b) as (b & B & T) by (exists w, b; rewrite <- B; auto). clear E W w.
    destruct (Byte.eqb c x22) eqn:Q.
    { apply byte_eqb_eq in Q as ->. destruct (scan_str t) as [[s r']|] eqn:S; [|discriminate]. injection H as <- <-.
      apply (scan_str_sound _ _ _ _ (le_n _)) in S as [-> S]. exists (x22 :: s ++ [x22]). split; [cbn [app]; rewrite <- app_assoc; reflexivity|constructor; exact S]. }
    destruct (Byte.eqb c x5b) eqn:B.
    { apply byte_eqb_eq in B as ->. destruct (skip_split t) as (w & W & E). destruct (skip_ws t) as [|d r1] eqn:Es; [discriminate|].
      destruct (Byte.eqb d x5d) eqn:D.
      - injection H as <- <-. apply byte_eqb_eq in D as ->. exists (x5b :: w ++ [x5d]). split; [cbn [app]; rewrite <- app_assoc; cbn [app]; congruence|constructor; exact W].
      - destruct (elements n t) as [[vs r']|] eqn:El; [|discriminate]. injection H as <- <-. apply IHe in El as (b & -> & I).
        exists (x5b :: b ++ [x5d]). split; [cbn [app]; rewrite <- app_assoc; reflexivity|constructor; exact I]. }
    destruct (Byte.eqb c x7b) eqn:O.
    { apply byte_eqb_eq in O as ->. destruct (skip_split t) as (w & W & E). destruct (skip_ws t) as [|d r1] eqn:Es; [discriminate|].
      destruct (Byte.eqb d x7d) eqn:D.
      - injection H as <- <-. apply byte_eqb_eq in D as ->. exists (x7b :: w ++ [x7d]). split; [cbn [app]; rewrite <- app_assoc; cbn [app]; congruence|constructor; exact W].
      - destruct (members n t) as [[vs r']|] eqn:El; [|discriminate]. injection H as <- <-. apply IHm in El as (b & -> & I).
        exists (x7b :: b ++ [x7d]). split; [cbn [app]; rewrite <- app_assoc; reflexivity|constructor; exact I]. }
    destruct (Byte.eqb c x6e); [apply literal_sound in H as [-> H]; exists (str "null"); split; [exact H|constructor]|].
    destruct (Byte.eqb c x74); [apply literal_sound in H as [-> H]; exists (str "true"); split; [exact H|constructor]|].
    destruct (Byte.eqb c x66); [apply literal_sound in H as [-> H]; exists (str "false"); split; [exact H|constructor]|].
    destruct (scan_num (c :: t)) as [[s r']|] eqn:S; [|discriminate]. injection H as <- <-. apply scan_num_sound in S as [S N].
    exists s. split; [exact S|constructor; exact N].
  - intros l vs r H. cbn [elements] in H. destruct (value n l) as [[v r0]|] eqn:V; [|discriminate]. apply Sp in V as (b & -> & T).
    destruct (skip_ws r0) as [|c r1]; [discriminate|]. destruct (Byte.eqb c x5d) eqn:C.
    { injection H as <- <-. apply byte_eqb_eq in C as ->. exists b. split; [reflexivity|constructor; exact T]. }
    destruct (Byte.eqb c x2c) eqn:C2; [|discriminate]. apply byte_eqb_eq in C2 as ->.
    destruct (elements n r1) as [[vs' r2]|] eqn:El; [|discriminate]. injection H as <- <-. apply IHe in El as (bs & -> & I).
    exists (b ++ x2c :: bs). split; [rewrite <- app_assoc; reflexivity|constructor; assumption].
  - intros l ms r H. cbn [members] in H. destruct (skip_split l) as (w & W & E). destruct (skip_ws l) as [|q r0]; [discriminate|]. subst l.
    destruct (Byte.eqb q x22) eqn:Q; [|discriminate]. apply byte_eqb_eq in Q as ->.
    destruct (scan_str r0) as [[k r1]|] eqn:S; [|discriminate]. apply (scan_str_sound _ _ _ _ (le_n _)) in S as [-> S].
    destruct (skip_split r1) as (w' & W' & E'). destruct (skip_ws r1) as [|cl r2]; [discriminate|]. subst r1.
    destruct (Byte.eqb cl x3a) eqn:Cl; [|discriminate]. apply byte_eqb_eq in Cl as ->.
    destruct (value n r2) as [[v r3]|] eqn:V; [|discriminate]. apply Sp in V as (b & -> & T).
    assert (M : pair (k, v) (w ++ x22 :: k ++ x22 :: w' ++ x3a :: b)) by (constructor; assumption).
    destruct (skip_ws r3) as [|c r4]; [discriminate|]. destruct (Byte.eqb c x7d) eqn:C.
    { injection H as <- <-. apply byte_eqb_eq in C as ->. eexists. split; [|constructor; exact M]. repeat (rewrite <- ?app_assoc; cbn [app]). reflexivity. }
    destruct (Byte.eqb c x2c) eqn:C2; [|discriminate]. apply byte_eqb_eq in C2 as ->.
    destruct (members n r4) as [[ms' r5]|] eqn:El; [|discriminate]. injection H as <- <-. apply IHm in El as (bs & -> & I).
    eexists. split; [|exact (pairs_more _ _ _ _ M I)]. repeat (rewrite <- ?app_assoc; cbn [app]). reflexivity.
Qed.

Scheme text_mind := Induction for text Sort Prop
with spaced_mind := Induction for spaced Sort Prop
with items_mind := Induction for items Sort Prop
with pair_mind := Induction for pair Sort Prop
with pairs_mind := Induction for pairs Sort Prop.
Combined Scheme grammar_mind from text_mind, spaced_mind, items_mind, pair_mind, pairs_mind.

Lemma ends_blank w r : blank w -> ends r -> ends (w ++ r).
Proof.
  intros W R. destruct w as [|c w]; [exact R|]. inversion W as [|? ? C _]; subst. cbn in C.
  destruct C as [<-|[<-|[<-|[<-|[]]]]]; cbn; (split; [intros [D1 D2]; vm_compute in D1, D2; solve [apply D1; reflexivity|apply D2; reflexivity]|intuition discriminate]).
Qed.
Lemma ends_char c r : In c [x2c; x5d; x7d] -> ends (c :: r).
Proof. intros [<-|[<-|[<-|[]]]]; cbn; (split; [intros [D1 D2]; vm_compute in D1, D2; solve [apply D1; reflexivity|apply D2; reflexivity]|intuition discriminate]). Qed.
Lemma text_head j b : text j b -> exists c t, b = c :: t /\ is_space c = false /\ c <> x5d /\ c <> x7d.
Proof.
  intros H. destruct H as [| | |n N|s S|w W|l b I|w W|l b I]; try (eexists _, _; split; [reflexivity|]; repeat split; discriminate).
  destruct (number_head n N) as (c & t & -> & C). exists c, t. split; [reflexivity|].
  destruct C as [C| ->]; [|repeat split; discriminate]. apply digit_iff in C. destruct c; try discriminate C; repeat split; discriminate.
Qed.
Lemma spaced_skip j b r : spaced j b -> exists c t, skip_ws (b ++ r) = c :: t /\ c <> x5d /\ c <> x7d.
Proof.
  intros H. destruct H as [w j b w' W T W']. rewrite <- !app_assoc, (skip_blank w W). destruct (text_head j b T) as (c & t & -> & S & C1 & C2).
  cbn [app]. rewrite skip_space by exact S. eauto.
Qed.
Lemma items_skip l b r : items l b -> exists c t, skip_ws (b ++ r) = c :: t /\ c <> x5d.
Proof.
  intros H. destruct H as [j b S|j b l bs S _]; [|rewrite <- app_assoc]; destruct (spaced_skip _ _ (r) S) as (c & t & E & C & _); [eauto|].
  destruct (spaced_skip _ _ ((x2c :: bs) ++ r) S) as (c' & t' & E' & C' & _). eauto.
Qed.
Lemma pairs_skip l b r : pairs l b -> exists c t, skip_ws (b ++ r) = c :: t /\ c <> x7d.
Proof.
  assert (P : forall m b r, pair m b -> exists c t, skip_ws (b ++ r) = c :: t /\ c <> x7d).
  { intros m b' r' H. destruct H as [w k w' j b' W K W' S]. rewrite <- app_assoc, (skip_blank w W). eexists _, _. split; [reflexivity|discriminate]. }
  intros H. destruct H as [m b M|m b l bs M _]; [apply (P _ _ _ M)|]. rewrite <- app_assoc. apply (P _ _ _ M).
Qed.

Lemma value_complete :
  (forall j b, text j b -> forall n w r, length b <= n -> blank w -> ends r -> value n (w ++ b ++ r) = Some (j, r)) /\
  (forall j b, spaced j b -> forall n r, length b <= n -> ends r -> exists r', value n (b ++ r) = Some (j, r') /\ skip_ws r' = skip_ws r) /\
  (forall l b, items l b -> forall n r, length b < n -> elements n (b ++ x5d :: r) = Some (l, r)) /\
  (forall m b, pair m b -> forall n r, length b < n -> ends r -> exists w w' r0 b0, b = w ++ x22 :: fst m ++ x22 :: w' ++ x3a :: b0 /\ blank w /\ chars (fst m) /\ blank w' /\
      value (pred n) (b0 ++ r) = Some (snd m, r0) /\ skip_ws r0 = skip_ws r) /\
  (forall l b, pairs l b -> forall n r, length b < n -> members n (b ++ x7d :: r) = Some (l, r)).
Proof.
  apply grammar_mind.
  - intros n w r L W R. destruct n; [cbn in L; lia|]. cbn [value]. rewrite (skip_blank w W). reflexivity.
  - intros n w r L W R. destruct n; [cbn in L; lia|]. cbn [value]. rewrite (skip_blank w W). reflexivity.
  - intros n w r L W R. destruct n; [cbn in L; lia|]. cbn [value]. rewrite (skip_blank w W). reflexivity.
  - intros s N n w r L W R. pose proof (scan_num_complete s N r R) as S. destruct (text_head _ _ (text_number s N)) as (c & t & -> & Sp & _).
    destruct (number_head _ N) as (c' & t' & E & C). injection E as <- <-.
    destruct n; [cbn in L; lia|]. cbn [value]. rewrite (skip_blank w W). cbn [app] in *. rewrite skip_space by exact Sp.
    assert (K : forall x, (x = x22 \/ x = x5b \/ x = x7b \/ x = x6e \/ x = x74 \/ x = x66) -> Byte.eqb c x = false).
    { intros x X. apply byte_eqb_neq. intros ->. destruct C as [C|C].
      - destruct X as [->|[->|[->|[->|[->| ->]]]]]; destruct C as [D1 D2]; vm_compute in D1, D2; solve [apply D1; reflexivity|apply D2; reflexivity].
      - subst x. destruct X as [X|[X|[X|[X|[X|X]]]]]; discriminate X. }
    rewrite !K by tauto. rewrite S. reflexivity.
  - intros s C n w r L W R. destruct n; [cbn in L; lia|]. cbn [value]. rewrite (skip_blank w W). cbn [app]. rewrite <- app_assoc.
    cbn [skip_ws is_space orb]. change (is_space x22) with false. cbv iota. change (Byte.eqb x22 x22) with true. cbv iota. cbn [app].
    rewrite (scan_str_complete s C). reflexivity.
  - intros w0 W0 n w r L W R. destruct n; [cbn in L; lia|]. cbn [value]. rewrite (skip_blank w W). cbn [app]. rewrite <- app_assoc.
    rewrite skip_space by reflexivity. change (Byte.eqb x5b x22) with false. change (Byte.eqb x5b x5b) with true. cbv iota.
    rewrite (skip_blank w0 W0). reflexivity.
  - intros l b I IH n w r L W R. destruct n; [cbn in L; lia|]. cbn [value]. rewrite (skip_blank w W). cbn [app]. rewrite <- app_assoc.
    rewrite skip_space by reflexivity. change (Byte.eqb x5b x22) with false. change (Byte.eqb x5b x5b) with true. cbv iota. cbn [app].
    destruct (items_skip l b (x5d :: r) I) as (c & t & -> & C). rewrite (proj2 (byte_eqb_neq _ _) C).
    cbn [length] in L. rewrite app_length in L. cbn [length] in L. rewrite IH by lia. reflexivity.
  - intros w0 W0 n w r L W R. destruct n; [cbn in L; lia|]. cbn [value]. rewrite (skip_blank w W). cbn [app]. rewrite <- app_assoc.
    rewrite skip_space by reflexivity. change (Byte.eqb x7b x22) with false. change (Byte.eqb x7b x5b) with false. change (Byte.eqb x7b x7b) with true. cbv iota.
    rewrite (skip_blank w0 W0). reflexivity.
  - intros l b I IH n w r L W R. destruct n; [cbn in L; lia|]. cbn [value]. rewrite (skip_blank w W). cbn [app]. rewrite <- app_assoc.
    rewrite skip_space by reflexivity. change (Byte.eqb x7b x22) with false. change (Byte.eqb x7b x5b) with false. change (Byte.eqb x7b x7b) with true. cbv iota. cbn [app].
    destruct (pairs_skip l b (x7d :: r) I) as (c & t & -> & C). rewrite (proj2 (byte_eqb_neq _ _) C).
    cbn [length] in L. rewrite app_length in L. cbn [length] in L. rewrite IH by lia. reflexivity.
  - intros w j b w' W T IH W' n r L R. rewrite !app_length in L. exists (w' ++ r). rewrite <- !app_assoc. split; [|apply skip_blank, W'].
    apply IH; [lia|exact W|]. apply ends_blank; assumption.
  - intros j b S IH n r L. destruct n; [lia|]. cbn [elements]. destruct (IH n (x5d :: r)) as (r' & V & E); [lia|apply ends_char; cbn; auto|].
    rewrite V, E. reflexivity.
  - intros j b l bs S IH I IHl n r L. destruct n; [lia|]. cbn [elements]. rewrite app_length in L. cbn [length] in L. rewrite <- app_assoc.
    destruct (IH n ((x2c :: bs) ++ x5d :: r)) as (r' & V & E); [lia|apply ends_char; cbn; auto|].
    rewrite V, E. cbn [app]. rewrite skip_space by reflexivity. change (Byte.eqb x2c x5d) with false. change (Byte.eqb x2c x2c) with true. cbv iota.
    rewrite IHl by lia. reflexivity.
  - intros w k w' j b W K W' S IH n r L R. cbn [fst snd]. rewrite app_length in L. cbn [length] in L. rewrite app_length in L. cbn [length] in L.
    rewrite app_length in L. cbn [length] in L. destruct (IH (pred n) r) as (r' & V & E); [lia|exact R|].
    exists w, w', r', b. repeat split; assumption.
  - intros [k j] b M IH n r L. destruct (IH n (x7d :: r) L) as (w & w' & r0 & b0 & -> & W & K & W' & V & E); [apply ends_char; cbn; auto|].
    cbn [fst snd] in *. destruct n; [lia|]. cbn [members pred] in *. rewrite <- app_assoc, (skip_blank w W). cbn [app]. rewrite skip_space by reflexivity.
    change (Byte.eqb x22 x22) with true. cbv iota. rewrite <- app_assoc. cbn [app]. rewrite (scan_str_complete k K), <- app_assoc, (skip_blank w' W').
    cbn [app]. rewrite skip_space by reflexivity. change (Byte.eqb x3a x3a) with true. cbv iota. rewrite V, E. reflexivity.
  - intros [k j] b l bs M IH P IHl n r L. rewrite app_length in L. cbn [length] in L.
    destruct (IH n (x2c :: bs ++ x7d :: r)) as (w & w' & r0 & b0 & -> & W & K & W' & V & E); [lia|apply ends_char; cbn; auto|].
    cbn [fst snd] in *. destruct n; [lia|]. cbn [members pred] in *. rewrite <- !app_assoc, (skip_blank w W). cbn [app]. rewrite skip_space by reflexivity.
    change (Byte.eqb x22 x22) with true. cbv iota. rewrite <- app_assoc. cbn [app]. rewrite (scan_str_complete k K), <- app_assoc, (skip_blank w' W').
    cbn [app]. rewrite skip_space by reflexivity. change (Byte.eqb x3a x3a) with true. cbv iota. rewrite V, E.
    rewrite skip_space by reflexivity. change (Byte.eqb x2c x7d) with false. change (Byte.eqb x2c x2c) with true. cbv iota. rewrite IHl by lia. reflexivity.
Qed.

Lemma max_le l (n : N) : (fold_right N.max 0 l <= n)%N <-> Forall (fun x => x <= n)%N l.
Proof.
  induction l as [|x l IH]; cbn [fold_right]; [split; [constructor|intros _; apply N.le_0_l]|]. rewrite N.max_lub_iff, IH. split; [intros [H1 H2]; constructor; assumption|].
  intros H. inversion H; subst. auto.
Qed.
Lemma depth_within j : forall n, (depth j <= n)%N <-> within n j.
Proof.
  induction j as [ |b|s|s|l IH|l IH] using json_rect'; intros n; try (split; [intros _; constructor|intros _; apply N.le_0_l]; fail).
  - cbn [depth]. split.
    + intros H. destruct n as [|n] using N.peano_ind; [lia|]. constructor. apply N.succ_le_mono in H. apply max_le in H. rewrite Forall_map in H.
      rewrite Forall_forall in *. intros x Hx. apply (IH x Hx), H, Hx.
    + intros H. inversion H as [| | | |m l' F|]; subst. rewrite <- N.succ_le_mono. apply max_le. rewrite Forall_map. rewrite Forall_forall in *. intros x Hx. apply (IH x Hx), F, Hx.
  - cbn [depth]. split.
    + intros H. destruct n as [|n] using N.peano_ind; [lia|]. constructor. apply N.succ_le_mono in H. apply max_le in H. rewrite Forall_map in H.
      rewrite Forall_forall in *. intros x Hx. apply (IH x Hx), H, Hx.
    + intros H. inversion H as [| | | | |m l' F]; subst. rewrite <- N.succ_le_mono. apply max_le. rewrite Forall_map. rewrite Forall_forall in *. intros x Hx. apply (IH x Hx), F, Hx.
Qed.
Lemma parse_grammar b j : parse b = Some j <-> json_text j b.
Proof.
  unfold parse, json_text. rewrite <- depth_within. change 10000%N with max_depth. split.
  - destruct (value (S (length b)) b) as [[v r]|] eqn:V; [|discriminate]. destruct (proj1 (value_sound _) _ _ _ V) as (w & t & E & W & T).
    destruct (skip_split r) as (w' & W' & E'). destruct (skip_ws r); [|discriminate]. destruct (N.leb_spec (depth v) max_depth) as [D|D]; [|discriminate].
    intros [= <-]. split; [|exact D]. rewrite app_nil_r in E'. subst r. rewrite E. constructor; assumption.
  - intros [P D]. destruct (proj1 (proj2 value_complete) j b P (S (length b)) []) as (r & V & E); [lia|exact I|]. rewrite app_nil_r in V.
    rewrite V, E. apply N.leb_le in D. rewrite D. reflexivity.
Qed.
