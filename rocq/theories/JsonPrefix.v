(** A JSON value that was cut off is not a JSON value. *)
From Coq Require Import Strings.String List NArith ZArith Bool Lia Wf_nat.
From Coq Require Import ZifyBool ZifyNat ZifyN.
From Verif Require Import GoBase GoBaseFacts Rfc3339 Json JsonFacts.
Import ListNotations.
Local Open Scope list_scope.

Lemma skip_ws_app l c r q : skip_ws l = c :: r -> skip_ws (l ++ q) = c :: r ++ q.
Proof.
  induction l as [|x l IH]; [discriminate|]. cbn [skip_ws app]. destruct (is_space x); [exact IH|].
  intros H. injection H as -> ->. reflexivity.
Qed.
Lemma scan_str_app q l : forall a r, scan_str l = Some (a, r) -> scan_str (l ++ q) = Some (a, r ++ q).
Proof.
  induction l as [l IH] using (induction_ltof1 _ (@length byte)). unfold ltof in IH.
  intros a r H. destruct l as [|c l]; [discriminate H|]. cbn [scan_str app] in *.
  destruct (Byte.eqb c x22); [injection H as <- <-; reflexivity|].
  destruct (Byte.eqb c x5c).
  - destruct l as [|e l]; [discriminate H|]. cbn [app]. destruct (simple_escape e).
    + destruct (scan_str l) as [[a' r']|] eqn:E; [|discriminate H]. rewrite (IH l ltac:(cbn [length]; lia) _ _ E).
      cbn [prepend] in *. injection H as <- <-. reflexivity.
    + destruct (Byte.eqb e x75); [|discriminate H]. destruct l as [|h1 [|h2 [|h3 [|h4 l]]]]; try discriminate H. cbn [app].
      destruct (is_hex h1 && is_hex h2 && is_hex h3 && is_hex h4); [|discriminate H].
      destruct (scan_str l) as [[a' r']|] eqn:E; [|discriminate H]. rewrite (IH l ltac:(cbn [length]; lia) _ _ E).
      cbn [prepend] in *. injection H as <- <-. reflexivity.
  - destruct (bval c <? 32)%N; [discriminate H|].
    destruct (scan_str l) as [[a' r']|] eqn:E; [|discriminate H]. rewrite (IH l ltac:(cbn [length]; lia) _ _ E).
    cbn [prepend] in *. injection H as <- <-. reflexivity.
Qed.

(** Numbers: the byte after them must be there. *)
Lemma span_ext q l ds r : span_digits l = (ds, r) -> r <> [] -> span_digits (l ++ q) = (ds, r ++ q).
Proof.
  revert ds. induction l as [|x l IH]; intros ds H N; cbn [span_digits app] in *.
  - injection H as <- <-. contradiction.
  - destruct (digit_char x).
    + destruct (span_digits l) as [a b]. injection H as <- <-. rewrite (IH a eq_refl N). reflexivity.
    + injection H as <- <-. reflexivity.
Qed.
Lemma scan_frac_ext q l f r : scan_frac l = Some (f, r) -> r <> [] -> l <> [] /\ scan_frac (l ++ q) = Some (f, r ++ q).
Proof.
  intros H N. destruct l as [|c l]; [injection H as <- <-; contradiction|]. split; [discriminate|]. cbn [app].
  destruct (Byte.eqb c x2e) eqn:E.
  - apply byte_eqb_eq in E. subst c. unfold scan_frac in *. destruct (span_digits l) as [[|d ds] r'] eqn:S; [discriminate H|].
    injection H as <- <-. rewrite (span_ext q l _ _ S N). reflexivity.
  - apply byte_eqb_neq in E. destruct c; try contradiction; injection H as <- <-; reflexivity.
Qed.
Lemma scan_exp_ext q l e r : scan_exp l = Some (e, r) -> r <> [] -> l <> [] /\ scan_exp (l ++ q) = Some (e, r ++ q).
Proof.
  intros H N. destruct l as [|c l]; [injection H as <- <-; contradiction|]. split; [discriminate|]. cbn [app scan_exp] in *.
  destruct (Byte.eqb c x65 || Byte.eqb c x45); [|injection H as <- <-; reflexivity].
  destruct l as [|s l]; [discriminate H|]. cbn [app].
  destruct (Byte.eqb s x2b || Byte.eqb s x2d).
  - destruct (span_digits l) as [[|d ds] r'] eqn:S; [discriminate H|]. injection H as <- <-. rewrite (span_ext q l _ _ S N). reflexivity.
  - destruct (span_digits (s :: l)) as [[|d ds] r'] eqn:S; [discriminate H|]. injection H as <- <-.
    change (s :: l ++ q) with ((s :: l) ++ q). rewrite (span_ext q _ _ _ S N). reflexivity.
Qed.
Lemma scan_int_ext q l i r : scan_int l = Some (i, r) -> r <> [] -> scan_int (l ++ q) = Some (i, r ++ q).
Proof.
  intros H N. destruct l as [|c l]; [discriminate H|]. unfold scan_int in *. cbn [app].
  destruct (Byte.eqb c x30); [injection H as <- <-; reflexivity|].
  destruct (span_digits (c :: l)) as [[|d ds] r'] eqn:S; [discriminate H|]. injection H as <- <-.
  change (c :: l ++ q) with ((c :: l) ++ q). rewrite (span_ext q _ _ _ S N). reflexivity.
Qed.
Lemma scan_num_ext q l s r : scan_num l = Some (s, r) -> r <> [] -> scan_num (l ++ q) = Some (s, r ++ q).
Proof.
  unfold scan_num. intros H N. destruct l as [|c l]; [discriminate H|]. cbn [app]. destruct (Byte.eqb c x2d).
  - destruct (scan_int l) as [[i r1]|] eqn:E1; [|discriminate H]. destruct (scan_frac r1) as [[f r2]|] eqn:E2; [|discriminate H].
    destruct (scan_exp r2) as [[e r3]|] eqn:E3; [|discriminate H]. injection H as <- <-.
    destruct (scan_exp_ext q _ _ _ E3 N) as [N2 E3']. destruct (scan_frac_ext q _ _ _ E2 N2) as [N1 E2']. rewrite (scan_int_ext q _ _ _ E1 N1), E2', E3'.
    reflexivity.
  - destruct (scan_int (c :: l)) as [[i r1]|] eqn:E1; [|discriminate H]. destruct (scan_frac r1) as [[f r2]|] eqn:E2; [|discriminate H].
    destruct (scan_exp r2) as [[e r3]|] eqn:E3; [|discriminate H]. injection H as <- <-.
    destruct (scan_exp_ext q _ _ _ E3 N) as [N2 E3']. destruct (scan_frac_ext q _ _ _ E2 N2) as [N1 E2'].
    change (c :: l ++ q) with ((c :: l) ++ q). rewrite (scan_int_ext q _ _ _ E1 N1), E2', E3'. reflexivity.
Qed.

Lemma strip_app q p : forall l r, strip_prefix p l = Some r -> strip_prefix p (l ++ q) = Some (r ++ q).
Proof.
  induction p as [|a p IH]; intros l r H; cbn [strip_prefix] in *; [injection H as <-; reflexivity|].
  destruct l as [|b l]; [discriminate H|]. cbn [app]. destruct (Byte.eqb a b); [apply IH, H|discriminate H].
Qed.
Lemma literal_app q word v l j r : literal word v l = Some (j, r) -> literal word v (l ++ q) = Some (j, r ++ q).
Proof.
  unfold literal. destruct (strip_prefix word l) as [r'|] eqn:E; [|discriminate]. intros H. injection H as <- <-.
  rewrite (strip_app q _ _ _ E). reflexivity.
Qed.

Definition is_num (j : json) : bool := match j with JNum _ => true | _ => false end.

Lemma value_ext n : (forall l j r q n', value n l = Some (j, r) -> r <> [] \/ is_num j = false -> n <= n' -> value n' (l ++ q) = Some (j, r ++ q)) /\
  (forall l vs r q n', elements n l = Some (vs, r) -> n <= n' -> elements n' (l ++ q) = Some (vs, r ++ q)) /\
  (forall l vs r q n', members n l = Some (vs, r) -> n <= n' -> members n' (l ++ q) = Some (vs, r ++ q)).
Proof.
  induction n as [|n (IHv & IHe & IHm)]; [repeat split; discriminate|]. split; [|split].
  - intros l j r q n' H D L. destruct n' as [|n']; [lia|]. cbn [value] in *.
    destruct (skip_ws l) as [|c t] eqn:W; [discriminate H|]. rewrite (skip_ws_app _ _ _ q W).
    destruct (Byte.eqb c x22).
    { destruct (scan_str t) as [[s r']|] eqn:E; [|discriminate H]. injection H as <- <-. rewrite (scan_str_app q _ _ _ E). reflexivity. }
    destruct (Byte.eqb c x5b).
    { destruct (skip_ws t) as [|d r1] eqn:W2; [discriminate H|]. rewrite (skip_ws_app _ _ _ q W2).
      destruct (Byte.eqb d x5d); [injection H as <- <-; reflexivity|].
      destruct (elements n t) as [[vs r']|] eqn:E; [|discriminate H]. injection H as <- <-. rewrite (IHe _ _ _ q n' E) by lia. reflexivity. }
    destruct (Byte.eqb c x7b).
    { destruct (skip_ws t) as [|d r1] eqn:W2; [discriminate H|]. rewrite (skip_ws_app _ _ _ q W2).
      destruct (Byte.eqb d x7d); [injection H as <- <-; reflexivity|].
      destruct (members n t) as [[vs r']|] eqn:E; [|discriminate H]. injection H as <- <-. rewrite (IHm _ _ _ q n' E) by lia. reflexivity. }
    change (c :: t ++ q) with ((c :: t) ++ q).
    destruct (Byte.eqb c x6e); [apply literal_app, H|]. destruct (Byte.eqb c x74); [apply literal_app, H|].
    destruct (Byte.eqb c x66); [apply literal_app, H|].
    destruct (scan_num (c :: t)) as [[s r']|] eqn:E; [|discriminate H]. injection H as <- <-.
    destruct D as [D|D]; [|discriminate D]. rewrite (scan_num_ext q _ _ _ E D). reflexivity.
  - intros l vs r q n' H L. destruct n' as [|n']; [lia|]. cbn [elements] in *.
    destruct (value n l) as [[v r1]|] eqn:V; [|discriminate H]. destruct (skip_ws r1) as [|c r2] eqn:W; [discriminate H|].
    rewrite (IHv _ _ _ q n' V) by (first [lia|left; intros ->; discriminate W]). rewrite (skip_ws_app _ _ _ q W).
    destruct (Byte.eqb c x5d); [injection H as <- <-; reflexivity|]. destruct (Byte.eqb c x2c); [|discriminate H].
    destruct (elements n r2) as [[vs' r3]|] eqn:E; [|discriminate H]. injection H as <- <-. rewrite (IHe _ _ _ q n' E) by lia. reflexivity.
  - intros l vs r q n' H L. destruct n' as [|n']; [lia|]. cbn [members] in *.
    destruct (skip_ws l) as [|c t] eqn:W0; [discriminate H|]. rewrite (skip_ws_app _ _ _ q W0).
    destruct (Byte.eqb c x22); [|discriminate H].
    destruct (scan_str t) as [[k r1]|] eqn:E; [|discriminate H]. rewrite (scan_str_app q _ _ _ E).
    destruct (skip_ws r1) as [|c1 r2] eqn:W1; [discriminate H|]. rewrite (skip_ws_app _ _ _ q W1).
    destruct (Byte.eqb c1 x3a); [|discriminate H].
    destruct (value n r2) as [[v r3]|] eqn:V; [|discriminate H]. destruct (skip_ws r3) as [|c2 r4] eqn:W; [discriminate H|].
    rewrite (IHv _ _ _ q n' V) by (first [lia|left; intros ->; discriminate W]). rewrite (skip_ws_app _ _ _ q W).
    destruct (Byte.eqb c2 x7d); [injection H as <- <-; reflexivity|]. destruct (Byte.eqb c2 x2c); [|discriminate H].
    destruct (members n r4) as [[vs' r5]|] eqn:E5; [|discriminate H]. injection H as <- <-. rewrite (IHm _ _ _ q n' E5) by lia. reflexivity.
Qed.

(** The beginning of an object is not a JSON text. *)
Lemma parse_cut l p q : wf (JObj l) -> render (JObj l) = p ++ q -> q <> [] -> parse p = None.
Proof.
  intros W E N. unfold parse. destruct (value (S (length p)) p) as [[j r]|] eqn:V; [|reflexivity].
  exfalso. destruct p as [|c p]; [discriminate V|]. assert (c = x7b) by (cbn [render app] in E; injection E as <- _; reflexivity). subst c.
  assert (Nn : is_num j = false).
  { cbn [value] in V. rewrite skip_head in V by reflexivity. change (Byte.eqb x7b x22) with false in V. change (Byte.eqb x7b x5b) with false in V.
    change (Byte.eqb x7b x7b) with true in V. cbv iota in V. destruct (skip_ws p) as [|d r1]; [discriminate V|].
    destruct (Byte.eqb d x7d); [injection V as <- <-; reflexivity|]. destruct (members _ p) as [[vs r']|]; [|discriminate V]. injection V as <- <-. reflexivity. }
  set (n := S (length (x7b :: p) + length (render (JObj l)))).
  pose proof (proj1 (value_ext _) _ _ _ q n V (or_intror Nn) ltac:(unfold n; lia)) as H.
  pose proof (value_render _ W n [] ltac:(pose proof (need_length _ W); unfold n; lia) I) as H2.
  rewrite app_nil_r, E, H in H2. injection H2 as _ K. apply app_eq_nil in K. destruct K. contradiction.
Qed.
