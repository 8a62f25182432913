(** base64: decoding is the inverse of encoding, and the characters used. *)
From Coq Require Import Strings.String List NArith ZArith Bool Lia.
From Coq Require Import ZifyBool ZifyNat ZifyN.
From Verif Require Import GoBase GoBaseFacts Base64.
Import ListNotations.
Local Open Scope N_scope.
Local Open Scope list_scope.

Ltac Zify.zify_post_hook ::= Z.to_euclidean_division_equations.

(** Characters that need no attention anywhere: letters, digits, plus, slash
    and the equals sign. *)
Definition plain (c : byte) : bool :=
  let v := bval c in
  (65 <=? v) && (v <=? 90) || (97 <=? v) && (v <=? 122) || (48 <=? v) && (v <=? 57)
  || (v =? 43) || (v =? 47) || (v =? 61).

Lemma char_table : forallb (fun k => let c := nth k alphabet x00 in
    match b64_value c with Some i => i =? N.of_nat k | None => false end
    && plain c && negb (Byte.eqb c pad) && negb (Byte.eqb c x0a) && negb (Byte.eqb c x0d)) (seq 0 64) = true.
Proof. vm_compute. reflexivity. Qed.

Lemma char_facts i : b64_value (b64_char i) = Some (i mod 64) /\ plain (b64_char i) = true /\
  Byte.eqb (b64_char i) pad = false /\ Byte.eqb (b64_char i) x0a = false /\ Byte.eqb (b64_char i) x0d = false.
Proof.
  pose proof (proj1 (forallb_forall _ _) char_table (N.to_nat (i mod 64))) as H.
  assert (L : i mod 64 < 64) by (apply N.mod_lt; lia).
  specialize (H ltac:(apply in_seq; lia)). cbv beta zeta in H. unfold b64_char.
  set (c := nth (N.to_nat (i mod 64)) alphabet x00) in *. rewrite N2Nat.id in H.
  repeat rewrite andb_true_iff in H. destruct H as ((((H1 & H2) & H3) & H4) & H5).
  destruct (b64_value c) as [j|]; [|discriminate]. apply N.eqb_eq in H1. subst j.
  split; [reflexivity|]. split; [exact H2|].
  apply negb_true_iff in H3, H4, H5. auto.
Qed.

Lemma encode_plain l : Forall (fun c => plain c = true) (b64_encode l).
Proof.
  induction l as [l IH] using (induction_ltof1 _ (@length byte)). unfold ltof in IH.
  assert (P : forall i, plain (b64_char i) = true) by (intros i; apply char_facts).
  destruct l as [|a [|b [|c r]]]; cbn [b64_encode app]; repeat constructor; try apply P.
  apply IH. cbn [length]. lia.
Qed.

Lemma plain_no_eol c : plain c = true -> negb (Byte.eqb c x0a || Byte.eqb c x0d) = true.
Proof. destruct c; try reflexivity; intros H; vm_compute in H; discriminate H. Qed.

Lemma filter_all {A} (f : A -> bool) l : Forall (fun x => f x = true) l -> filter f l = l.
Proof. induction 1 as [|x l Hx Hl IH]; [reflexivity|]. cbn [filter]. rewrite Hx, IH. reflexivity. Qed.

Lemma byte_of_eq x b : x mod 256 = bval b -> byte_of x = b.
Proof. intros H. apply bval_inj. rewrite bval_byte_of. exact H. Qed.

Lemma quanta_encode l : b64_quanta (b64_encode l) = Some l.
Proof.
  induction l as [l IH] using (induction_ltof1 _ (@length byte)). unfold ltof in IH.
  destruct l as [|a [|b [|c r]]]; [reflexivity| | |]; cbn [b64_encode app b64_quanta].
  - repeat rewrite (proj1 (char_facts _)). change (Byte.eqb pad pad) with true. cbv iota.
    pose proof (bval_lt a). do 2 f_equal. apply byte_of_eq. lia.
  - repeat rewrite (proj1 (char_facts _)). change (Byte.eqb pad pad) with true. cbv iota.
    rewrite (proj1 (proj2 (proj2 (char_facts _)))).
    pose proof (bval_lt a). pose proof (bval_lt b).
    f_equal. f_equal; [apply byte_of_eq; lia|]. f_equal. apply byte_of_eq. lia.
  - repeat rewrite (proj1 (char_facts _)).
    rewrite (proj1 (proj2 (proj2 (char_facts _)))), (IH r) by (cbn [length]; lia).
    pose proof (bval_lt a). pose proof (bval_lt b). pose proof (bval_lt c).
    f_equal. f_equal; [apply byte_of_eq; lia|]. f_equal; [apply byte_of_eq; lia|]. f_equal. apply byte_of_eq. lia.
Qed.

Lemma decode_encode l : b64_decode (b64_encode l) = Some l.
Proof.
  unfold b64_decode. rewrite filter_all; [apply quanta_encode|].
  eapply Forall_impl; [|apply encode_plain]. intros c. apply plain_no_eol.
Qed.

