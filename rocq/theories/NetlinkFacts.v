(** Proofs about Netlink.v: attribute parsing and record construction. *)
From Coq Require Import Strings.String List NArith ZArith Bool Arith Lia ZifyN ZifyNat ZifyBool.
From Verif Require Import GoBase GoBaseFacts Layout Tcp NetIP Inetdiag Netlink SpecNetlink.
Import ListNotations.
Local Open Scope list_scope.
Local Open Scope nat_scope.

(** ** rta_align *)
Lemma rta_align_eq n : rta_align n = 4 * ((n + 3) / 4).
Proof.
  unfold rta_align. change 3%N with (N.ones 2) at 2.
  rewrite N.ldiff_ones_r, N.shiftr_div_pow2, N.shiftl_mul_pow2. change (2 ^ 2)%N with 4%N.
  apply Nat2N.inj. rewrite N2Nat.id, Nat2N.inj_mul, Nat2N.inj_div, Nat2N.inj_add.
  change (N.of_nat 3) with 3%N. change (N.of_nat 4) with 4%N. lia.
Qed.

Lemma rta_align_bounds n : n <= rta_align n < n + 4 /\ rta_align n mod 4 = 0.
Proof.
  rewrite rta_align_eq. split.
  - pose proof (Nat.div_mod (n + 3) 4 ltac:(lia)). pose proof (Nat.mod_upper_bound (n + 3) 4 ltac:(lia)). lia.
  - rewrite Nat.mul_comm. apply Nat.mod_mul. lia.
Qed.

Lemma rta_align_unique n m : n <= m -> m < n + 4 -> m mod 4 = 0 -> rta_align n = m.
Proof.
  intros. destruct (rta_align_bounds n) as [? ?].
  pose proof (Nat.div_mod m 4 ltac:(lia)). pose proof (Nat.div_mod (rta_align n) 4 ltac:(lia)). lia.
Qed.

(** ** sub, slices *)


(** ** One turn of the ParseRouteAttr loop *)
Definition alen_of (b : bytes) : nat := N.to_nat (le (sub 0 2 b)).
Definition atype_of (b : bytes) : N := le (sub 2 2 b).
Definition attr_at (b sp : bytes) : rtattr :=
  mkattr (le (sub 0 2 b)) (atype_of b) (mkslice (sub 4 (alen_of b - 4) b) (skipn (alen_of b) b ++ sp)).

Lemma parse_go_step f b sp acc :
  4 <= length b ->
  parse_route_attr_go (S f) (mkslice b sp) acc =
  if (alen_of b <? 4) || (length b <? alen_of b) then Fail EINVAL
  else if length b <? rta_align (alen_of b) then Panic
  else parse_route_attr_go f (mkslice (skipn (rta_align (alen_of b)) b) sp) (acc ++ [attr_at b sp]).
Proof.
  intros Hb. cbn [parse_route_attr_go vis spare]. unfold SizeofRtAttr.
  destruct (length b <? 4) eqn:E; [lia|]. clear E.
  unfold route_attr_and_value, alen_of. cbn [vis spare]. unfold SizeofRtAttr.
  destruct ((N.to_nat (le (sub 0 2 b)) <? 4) || (length b <? N.to_nat (le (sub 0 2 b)))) eqn:E; [reflexivity|].
  cbn [bind]. unfold slice_to, slice_from. cbn [vis spare].
  assert (Hl : 4 <= N.to_nat (le (sub 0 2 b)) <= length b) by lia.
  rewrite app_length, skipn_length.
  destruct (length b - 4 + length sp <? N.to_nat (le (sub 0 2 b)) - 4) eqn:E2; [lia|].
  cbn [bind]. destruct (length b <? rta_align (N.to_nat (le (sub 0 2 b)))) eqn:E3; [reflexivity|].
  cbn [bind]. f_equal. unfold attr_at, atype_of, alen_of. do 3 f_equal.
  f_equal.
  - unfold sub. rewrite firstn_app, skipn_length.
    replace (N.to_nat (le (firstn 2 (skipn 0 b))) - 4 - (length b - 4)) with 0 by (unfold sub in Hl; lia).
    rewrite firstn_O, app_nil_r. reflexivity.
  - rewrite skipn_app, skipn_length.
    replace (N.to_nat (le (sub 0 2 b)) - 4 - (length b - 4)) with 0 by lia.
    rewrite skipn_O, skipn_skipn_add. do 2 f_equal. lia.
Qed.

Lemma parse_go_done f b sp acc : length b < 4 -> parse_route_attr_go f (mkslice b sp) acc = Ret acc.
Proof.
  intros. destruct f; cbn [parse_route_attr_go vis]; unfold SizeofRtAttr;
  (destruct (length b <? 4) eqn:E; [reflexivity|lia]).
Qed.

Definition ty_val (a : rtattr) : N * bytes := (rta_type a, vis (rta_value a)).

(** ** The decomposition of an attribute area *)

(** b starts with a complete, padded attribute *)
Lemma head_decompose b sp :
  4 <= alen_of b -> rta_align (alen_of b) <= length b ->
  exists pad, b = wire_attr (atype_of b) (vis (rta_value (attr_at b sp))) pad ++ skipn (rta_align (alen_of b)) b
   /\ attr_ok (atype_of b) (vis (rta_value (attr_at b sp)))
   /\ pad_ok (vis (rta_value (attr_at b sp))) pad.
Proof.
  intros H4 Hl. destruct (rta_align_bounds (alen_of b)) as [Hb Hm].
  set (L := alen_of b) in *. set (A := rta_align L) in *.
  exists (sub L (A - L) b). cbn [attr_at rta_value vis]. fold L.
  assert (Hv : length (sub 4 (L - 4) b) = L - 4) by (apply sub_length; lia).
  assert (Hp : length (sub L (A - L) b) = A - L) by (apply sub_length; lia).
  assert (HL : le (sub 0 2 b) = N.of_nat L) by (unfold L, alen_of; lia).
  assert (HLb : (N.of_nat L < 65536)%N).
  { rewrite <- HL. pose proof (le_lt (sub 0 2 b)) as K. rewrite sub_length in K by lia. exact K. }
  split; [|split].
  - unfold wire_attr. rewrite Hv. replace (4 + N.of_nat (L - 4))%N with (le (sub 0 2 b)) by lia.
    assert (E0 : length (sub 0 2 b) = 2) by (apply sub_length; lia).
    assert (E2 : length (sub 2 2 b) = 2) by (apply sub_length; lia).
    assert (F0 : le_enc 2 (le (sub 0 2 b)) = sub 0 2 b) by (rewrite <- E0 at 1; apply le_enc_le).
    assert (F2 : le_enc 2 (le (sub 2 2 b)) = sub 2 2 b) by (rewrite <- E2 at 1; apply le_enc_le).
    unfold atype_of. rewrite F0, F2. unfold sub. rewrite <- !app_assoc.
    rewrite <- (firstn_skipn 2 b) at 1. cbn [skipn]. f_equal.
    rewrite <- (firstn_skipn 2 (skipn 2 b)) at 1. f_equal. rewrite skipn_skipn_add.
    rewrite <- (firstn_skipn (L - 4) (skipn (2 + 2) b)) at 1. f_equal. rewrite skipn_skipn_add.
    replace (2 + 2 + (L - 4)) with L by lia.
    rewrite <- (firstn_skipn (A - L) (skipn L b)) at 1. f_equal. rewrite skipn_skipn_add. f_equal. lia.
  - split.
    + unfold atype_of. pose proof (le_lt (sub 2 2 b)) as K. rewrite sub_length in K by lia. exact K.
    + rewrite Hv. lia.
  - split; [lia|]. rewrite Hv, Hp. replace (L - 4 + (A - L)) with (A - 4) by lia.
    pose proof (Nat.div_mod A 4 ltac:(lia)). replace (A - 4) with ((A / 4 - 1) * 4) by lia. apply Nat.mod_mul. lia.
Qed.

Lemma sub_app_l o n a (b : bytes) : o + n <= length a -> sub o n (a ++ b) = sub o n a.
Proof.
  intros. unfold sub. rewrite skipn_app, firstn_app, skipn_length.
  replace (n - (length a - o)) with 0 by lia. rewrite firstn_O, app_nil_r. reflexivity.
Qed.
Lemma sub_app_r o n a (b : bytes) : length a <= o -> sub o n (a ++ b) = sub (o - length a) n b.
Proof. intros. unfold sub. rewrite skipn_app, (skipn_all2 a) by lia. reflexivity. Qed.
Lemma sub_0_all (l : bytes) n : length l = n -> sub 0 n l = l.
Proof. intros <-. unfold sub. rewrite skipn_O. apply firstn_all. Qed.

(** the head fields of an encoded attribute *)
Lemma wire_alen ty v pad rest : attr_ok ty v -> alen_of (wire_attr ty v pad ++ rest) = 4 + length v.
Proof.
  intros [H1 H2]. unfold alen_of, wire_attr. rewrite <- !app_assoc.
  rewrite sub_app_l by (rewrite le_enc_length; lia).
  rewrite sub_0_all by apply le_enc_length. rewrite le_le_enc.
  change (256 ^ N.of_nat 2)%N with 65536%N. rewrite N.mod_small by lia. lia.
Qed.
Lemma wire_atype ty v pad rest : attr_ok ty v -> atype_of (wire_attr ty v pad ++ rest) = ty.
Proof.
  intros [H1 H2]. unfold atype_of, wire_attr. rewrite <- !app_assoc.
  rewrite sub_app_r by (rewrite le_enc_length; lia). rewrite le_enc_length.
  rewrite sub_app_l by (rewrite le_enc_length; lia).
  rewrite sub_0_all by apply le_enc_length. rewrite le_le_enc.
  change (256 ^ N.of_nat 2)%N with 65536%N. rewrite N.mod_small by lia. reflexivity.
Qed.
Lemma wire_attr_length ty v pad : length (wire_attr ty v pad) = 4 + length v + length pad.
Proof. unfold wire_attr. rewrite !app_length, !le_enc_length. lia. Qed.
Lemma wire_value ty v pad rest sp : attr_ok ty v -> vis (rta_value (attr_at (wire_attr ty v pad ++ rest) sp)) = v.
Proof.
  intros H. cbn [attr_at rta_value vis]. rewrite wire_alen by exact H.
  replace (4 + length v - 4) with (length v) by lia. unfold wire_attr. rewrite <- !app_assoc.
  rewrite sub_app_r by (rewrite le_enc_length; lia). rewrite le_enc_length.
  rewrite sub_app_r by (rewrite le_enc_length; lia). rewrite le_enc_length.
  rewrite sub_app_l by lia. apply sub_0_all. reflexivity.
Qed.
Lemma pad_align v pad : pad_ok v pad -> rta_align (4 + length v) = 4 + length v + length pad.
Proof.
  intros [H1 H2]. apply rta_align_unique; [lia|lia|].
  replace (4 + length v + length pad) with (length v + length pad + 1 * 4) by lia.
  rewrite Nat.mod_add by lia. exact H2.
Qed.
Lemma skipn_app_len (A : Type) (a b : list A) n : n = length a -> skipn n (a ++ b) = b.
Proof. intros ->. rewrite skipn_app, skipn_all, Nat.sub_diag. reflexivity. Qed.

(** Parsing a well-formed prefix leaves the rest. *)
Lemma parse_prefix l p : wire_list l p ->
  forall rest sp f acc, length p + length rest <= f ->
  exists attrs f', map ty_val attrs = l /\ length rest <= f' /\
    parse_route_attr_go f (mkslice (p ++ rest) sp) acc = parse_route_attr_go f' (mkslice rest sp) (acc ++ attrs).
Proof.
  induction 1 as [|ty v pad l b Hok Hpad Hl IH]; intros rest sp f acc Hf.
  - exists [], f. rewrite app_nil_r. cbn in *. auto.
  - rewrite app_length, wire_attr_length in Hf. destruct f as [|f]; [lia|].
    rewrite <- app_assoc.
    rewrite parse_go_step by (rewrite app_length, wire_attr_length; lia).
    rewrite wire_alen by exact Hok. rewrite (pad_align v pad Hpad).
    rewrite app_length, wire_attr_length.
    replace (4 + length v <? 4) with false by lia.
    replace (4 + length v + length pad + length (b ++ rest) <? 4 + length v) with false by lia. cbn [orb].
    replace (4 + length v + length pad + length (b ++ rest) <? 4 + length v + length pad) with false by lia.
    rewrite skipn_app_len by (rewrite wire_attr_length; lia).
    destruct (IH rest sp f (acc ++ [attr_at (wire_attr ty v pad ++ b ++ rest) sp]) ltac:(lia)) as (attrs & f' & E1 & E2 & E3).
    exists (attr_at (wire_attr ty v pad ++ b ++ rest) sp :: attrs), f'. split; [|split; [exact E2|]].
    + cbn [map]. f_equal; [|exact E1]. unfold ty_val. rewrite wire_value by exact Hok.
      cbn [attr_at rta_type]. rewrite wire_atype by exact Hok. reflexivity.
    + rewrite E3, <- app_assoc. reflexivity.
Qed.

(** Every input has exactly one of the three shapes. *)
Inductive shape : bytes -> Prop :=
| sh_area l b : wire_area l b -> shape b
| sh_bad b : wire_bad_length b -> shape b
| sh_unp b : wire_unpadded b -> shape b.

Lemma le2 (b : bytes) : 4 <= length b -> exists l0 l1 t0 t1 rest, b = l0 :: l1 :: t0 :: t1 :: rest.
Proof.
  intros. destruct b as [|l0 [|l1 [|t0 [|t1 rest]]]]; cbn in H; try lia. eauto 10.
Qed.
Lemma alen_cons l0 l1 t0 t1 rest : alen_of (l0 :: l1 :: t0 :: t1 :: rest) = N.to_nat (bval l0 + 256 * bval l1).
Proof. unfold alen_of, sub. cbn [skipn firstn le]. f_equal. lia. Qed.

Lemma shape_total_n n : forall b, length b <= n -> shape b.
Proof.
  induction n as [|n IH]; intros b Hn.
  - destruct b; [|cbn in Hn; lia]. eapply sh_area. exists [], []. repeat split; [constructor|cbn; lia].
  - destruct (le_lt_dec 4 (length b)) as [H4|H4].
    2:{ eapply sh_area. exists [], b. repeat split; [constructor|exact H4]. }
    destruct (le2 b H4) as (l0 & l1 & t0 & t1 & rest & Eb).
    assert (EL : alen_of b = N.to_nat (bval l0 + 256 * bval l1)) by (rewrite Eb; apply alen_cons).
    destruct (le_lt_dec 4 (alen_of b)) as [HL|HL].
    2:{ apply sh_bad. exists [], [], l0, l1, t0, t1, rest. repeat split; [exact Eb|constructor|left; lia]. }
    destruct (le_lt_dec (alen_of b) (length b)) as [HL2|HL2].
    2:{ apply sh_bad. exists [], [], l0, l1, t0, t1, rest. repeat split; [exact Eb|constructor|right].
        rewrite Eb in HL2 at 1. cbn [length] in HL2. lia. }
    destruct (rta_align_bounds (alen_of b)) as [HA HM].
    destruct (le_lt_dec (rta_align (alen_of b)) (length b)) as [HL3|HL3].
    + destruct (head_decompose b [] HL HL3) as (pad & E & Hok & Hpad).
      destruct (IH (skipn (rta_align (alen_of b)) b)) as [l b' H|b' H|b' H].
      * rewrite skipn_length. lia.
      * destruct H as (p & tail & E1 & E2 & E3).
        eapply (sh_area ((_, _) :: l)). exists (wire_attr (atype_of b) (vis (rta_value (attr_at b []))) pad ++ p), tail.
        split; [|split; [constructor; eassumption|exact E3]]. rewrite <- app_assoc, <- E1. exact E.
      * destruct H as (l & p & a0 & a1 & a2 & a3 & r & E1 & E2 & E3).
        apply sh_bad. exists ((atype_of b, vis (rta_value (attr_at b []))) :: l),
          (wire_attr (atype_of b) (vis (rta_value (attr_at b []))) pad ++ p), a0, a1, a2, a3, r.
        split; [|split; [constructor; assumption|exact E3]]. rewrite <- app_assoc, <- E1. exact E.
      * destruct H as (l & p & ty & v & pd & pd' & E1 & E2 & E3).
        apply sh_unp. exists ((atype_of b, vis (rta_value (attr_at b []))) :: l),
          (wire_attr (atype_of b) (vis (rta_value (attr_at b []))) pad ++ p), ty, v, pd, pd'.
        split; [|split; [constructor; assumption|exact E3]]. rewrite <- app_assoc, <- E1. exact E.
    + (* unpadded: complete it with zeroes and use head_decompose *)
      set (z := repeat x00 (rta_align (alen_of b) - length b)).
      assert (Hz : length (b ++ z) = rta_align (alen_of b)) by (unfold z; rewrite app_length, repeat_length; lia).
      assert (Ea : alen_of (b ++ z) = alen_of b) by (unfold alen_of; rewrite sub_app_l by lia; reflexivity).
      destruct (head_decompose (b ++ z) [] ltac:(rewrite Ea; lia) ltac:(rewrite Ea; lia)) as (pad & E & Hok & Hpad).
      rewrite Ea, <- Hz, skipn_all, app_nil_r in E. 
      set (v := vis (rta_value (attr_at (b ++ z) []))) in *.
      assert (Hlv : length v = alen_of b - 4).
      { unfold v. cbn [attr_at rta_value vis]. rewrite Ea. apply sub_length. lia. }
      assert (Hlp : length pad = rta_align (alen_of b) - alen_of b).
      { apply (f_equal (@length byte)) in E. rewrite Hz, wire_attr_length in E. lia. }
      apply sh_unp. exists [], [], (atype_of (b ++ z)), v,
        (firstn (length b - alen_of b) pad), (skipn (length b - alen_of b) pad).
      split; [|split; [constructor|split; [exact Hok|split]]].
      * cbn [app]. apply (f_equal (firstn (length b))) in E.
        rewrite firstn_app, Nat.sub_diag, firstn_O, app_nil_r, firstn_all in E.
        etransitivity; [exact E|]. unfold wire_attr. rewrite firstn_app, le_enc_length, (firstn_all2 (le_enc 2 _)) by (rewrite le_enc_length; lia).
        f_equal. rewrite firstn_app, le_enc_length, (firstn_all2 (le_enc 2 _)) by (rewrite le_enc_length; lia).
        f_equal. rewrite firstn_app, (firstn_all2 v) by lia. f_equal. f_equal.  lia.
      * rewrite firstn_skipn. exact Hpad.
      * intro K. apply (f_equal (@length byte)) in K. rewrite skipn_length in K. cbn in K. lia.
Qed.
Lemma shape_total b : shape b.
Proof. apply (shape_total_n (length b)). lia. Qed.

Lemma parse_area l b sp : wire_area l b ->
  exists attrs, parse_route_attr (mkslice b sp) = Ret attrs /\ map ty_val attrs = l.
Proof.
  intros (p & tail & -> & H & Ht). unfold parse_route_attr. cbn [vis].
  destruct (parse_prefix l p H tail sp (length (p ++ tail)) [] ltac:(rewrite app_length; lia)) as (attrs & f' & E1 & E2 & E3).
  exists attrs. rewrite E3. rewrite parse_go_done by exact Ht. auto.
Qed.
Lemma parse_bad b sp : wire_bad_length b -> parse_route_attr (mkslice b sp) = Fail EINVAL.
Proof.
  intros (l & p & l0 & l1 & t0 & t1 & rest & -> & H & Hb). unfold parse_route_attr. cbn [vis].
  destruct (parse_prefix l p H (l0 :: l1 :: t0 :: t1 :: rest) sp (length (p ++ l0 :: l1 :: t0 :: t1 :: rest)) []
    ltac:(rewrite app_length; lia)) as (attrs & f' & E1 & E2 & E3).
  rewrite E3. destruct f' as [|f']; [cbn in E2; lia|]. rewrite parse_go_step by (cbn [length]; lia).
  rewrite alen_cons. cbn [length].
  replace ((N.to_nat (bval l0 + 256 * bval l1) <? 4) || (S (S (S (S (length rest)))) <? N.to_nat (bval l0 + 256 * bval l1))) with true; [reflexivity|].
  symmetry. apply orb_true_iff. rewrite !Nat.ltb_lt. lia.
Qed.
Lemma parse_unp b sp : wire_unpadded b -> parse_route_attr (mkslice b sp) = Panic.
Proof.
  intros (l & p & ty & v & pad & pad' & -> & H & Hok & Hpad & Hne). unfold parse_route_attr. cbn [vis].
  destruct (parse_prefix l p H (wire_attr ty v pad) sp (length (p ++ wire_attr ty v pad)) []
    ltac:(rewrite app_length; lia)) as (attrs & f' & E1 & E2 & E3).
  rewrite E3. destruct f' as [|f']; [rewrite wire_attr_length in E2; lia|].
  rewrite parse_go_step by (rewrite wire_attr_length; lia).
  rewrite <- (app_nil_r (wire_attr ty v pad)). rewrite wire_alen by exact Hok.
  rewrite (pad_align v (pad ++ pad') Hpad). rewrite app_nil_r, wire_attr_length, app_length.
  assert (length pad' > 0) by (destruct pad'; [congruence|cbn; lia]).
  replace (4 + length v <? 4) with false by lia.
  replace (4 + length v + length pad <? 4 + length v) with false by lia. cbn [orb].
  replace (4 + length v + length pad <? 4 + length v + (length pad + length pad')) with true by lia.
  reflexivity.
Qed.

Lemma parse_route_attr_ret_iff b sp l :
  (exists attrs, parse_route_attr (mkslice b sp) = Ret attrs /\ map ty_val attrs = l) <-> wire_area l b.
Proof.
  split; [|apply parse_area]. intros (attrs & E & El).
  destruct (shape_total b) as [l' b H|b H|b H].
  - destruct (parse_area l' b sp H) as (attrs' & E' & El'). rewrite E in E'. injection E' as ->. congruence.
  - rewrite (parse_bad b sp H) in E. discriminate.
  - rewrite (parse_unp b sp H) in E. discriminate.
Qed.
Lemma parse_route_attr_einval_iff b sp : parse_route_attr (mkslice b sp) = Fail EINVAL <-> wire_bad_length b.
Proof.
  split; [|apply parse_bad]. intros E. destruct (shape_total b) as [l' b H|b H|b H]; [| exact H |].
  - destruct (parse_area l' b sp H) as (attrs' & E' & El'). congruence.
  - rewrite (parse_unp b sp H) in E. discriminate.
Qed.
Lemma parse_route_attr_panic_iff b sp : parse_route_attr (mkslice b sp) = Panic <-> wire_unpadded b.
Proof.
  split; [|apply parse_unp]. intros E. destruct (shape_total b) as [l' b H|b H|b H]; [| | exact H].
  - destruct (parse_area l' b sp H) as (attrs' & E' & El'). congruence.
  - rewrite (parse_bad b sp H) in E. discriminate.
Qed.
Lemma parse_route_attr_cases b sp :
  (exists attrs, parse_route_attr (mkslice b sp) = Ret attrs) \/ parse_route_attr (mkslice b sp) = Fail EINVAL
  \/ parse_route_attr (mkslice b sp) = Panic.
Proof.
  destruct (shape_total b) as [l' b H|b H|b H].
  - destruct (parse_area l' b sp H) as (attrs' & E' & El'). eauto.
  - right. left. apply parse_bad, H.
  - right. right. apply parse_unp, H.
Qed.
