(** Proofs about net.IP classification (NetIP.v, isLocal). *)
From Coq Require Import Strings.String List NArith ZArith Bool Arith Lia ZifyN ZifyNat ZifyBool.
From Verif Require Import GoBase GoBaseFacts Layout Tcp NetIP Inetdiag Netlink SpecNetlink.
Import ListNotations.
Local Open Scope list_scope.
Local Open Scope nat_scope.

Lemma eqb_bval a b : Byte.eqb a b = (bval a =? bval b)%N.
Proof.
  destruct (bval a =? bval b)%N eqn:E.
  - apply N.eqb_eq in E. apply bval_inj in E. subst. apply byte_eqb_eq. reflexivity.
  - apply byte_eqb_neq. intros ->. rewrite N.eqb_refl in E. discriminate.
Qed.
Lemma land_mcast b : (N.land (bval b) 240 =? 224)%N = ((224 <=? bval b) && (bval b <=? 239))%N.
Proof. destruct b; reflexivity. Qed.
Lemma land_ll b : (N.land (bval b) 192 =? 128)%N = ((128 <=? bval b) && (bval b <=? 191))%N.
Proof. destruct b; reflexivity. Qed.

Lemma len16 (x : bytes) : length x = 16 ->
  exists a0 a1 a2 a3 a4 a5 a6 a7 a8 a9 a10 a11 a12 a13 a14 a15,
  x = [a0; a1; a2; a3; a4; a5; a6; a7; a8; a9; a10; a11; a12; a13; a14; a15].
Proof.
  intros H. do 16 (destruct x as [|? x]; [discriminate|]). destruct x; [|discriminate].
  repeat eexists.
Qed.

Lemma tail_zero_iff x : tail_zero x <->
  (nthb 4 x = 0 /\ nthb 5 x = 0 /\ nthb 6 x = 0 /\ nthb 7 x = 0 /\ nthb 8 x = 0 /\ nthb 9 x = 0 /\
   nthb 10 x = 0 /\ nthb 11 x = 0 /\ nthb 12 x = 0 /\ nthb 13 x = 0 /\ nthb 14 x = 0 /\ nthb 15 x = 0)%N.
Proof.
  unfold tail_zero. split.
  - intros H. repeat split; apply H; lia.
  - intros H i Hi. do 16 (destruct i as [|i]; [try lia; tauto|]). lia.
Qed.

Lemma is_ipv6_spec x : length x = 16 -> (is_ipv6 x = true <-> ~ tail_zero x).
Proof.
  intros H. destruct (len16 x H) as (a0&a1&a2&a3&a4&a5&a6&a7&a8&a9&a10&a11&a12&a13&a14&a15&->).
  rewrite tail_zero_iff. unfold is_ipv6, all_zero. cbn [skipn forallb nthb nth].
  rewrite !eqb_bval. change (bval x00) with 0%N. unfold nthb. cbn [nth]. 
  rewrite negb_true_iff. lia.
Qed.

Lemma is_local_v4 a b c d :
  is_local [a; b; c; d] = true <-> v4_local (bval a) (bval b) (bval c) (bval d).
Proof.
  unfold is_local, is_loopback, is_link_local_unicast, is_multicast, is_unspecified, to4, ip_equal, v4_local.
  cbn [length Nat.eqb IPv4zero IPv6unspecified IPv4 v4InV6Prefix app repeat bget nth andb].
  unfold bget; cbn [nth]. rewrite land_mcast.
  cbn [firstn skipn bytes_eqb]. rewrite !eqb_bval. cbn [Byte.eqb]. 
  change (bval x00) with 0%N. change (bval xff) with 255%N. cbn [N.eqb andb Pos.eqb].
  lia.
Qed.

Lemma all_zero_iff l : all_zero l = true <-> forall i, i < length l -> nthb i l = 0%N.
Proof.
  unfold all_zero, nthb. induction l as [|a l IH]; cbn [forallb length].
  - split; auto. intros _ i Hi. lia.
  - rewrite andb_true_iff, IH, eqb_bval, N.eqb_eq. change (bval x00) with 0%N. split.
    + intros [H1 H2] [|i] Hi; cbn [nth]; [exact H1|apply H2; lia].
    + intros H. split; [apply (H 0); lia|]. intros i Hi. apply (H (S i)). lia.
Qed.

Lemma bytes_eqb_zero_false (l m : bytes) k : all_zero (firstn k l) = false -> all_zero (firstn k m) = true ->
  bytes_eqb l m = false.
Proof.
  intros H1 H2. destruct (bytes_eqb l m) eqn:E; [|reflexivity].
  apply bytes_eqb_eq in E. subst. congruence.
Qed.

Lemma is_local_v6 x : length x = 16 -> (is_local x = true <-> v6_local x).
Proof.
  intros H. destruct (all_zero (firstn 10 x)) eqn:Z.
  - rewrite all_zero_iff in Z. rewrite firstn_length, H in Z.
    destruct (len16 x H) as (a0&a1&a2&a3&a4&a5&a6&a7&a8&a9&a10&a11&a12&a13&a14&a15&->).
    assert (Zi : forall i, i < 10 -> nth i [a0; a1; a2; a3; a4; a5; a6; a7; a8; a9] x00 = x00).
    { intros i Hi. apply bval_inj. specialize (Z i ltac:(cbn; lia)). exact Z. }
    pose proof (Zi 0 ltac:(lia)); pose proof (Zi 1 ltac:(lia)); pose proof (Zi 2 ltac:(lia));
    pose proof (Zi 3 ltac:(lia)); pose proof (Zi 4 ltac:(lia)); pose proof (Zi 5 ltac:(lia));
    pose proof (Zi 6 ltac:(lia)); pose proof (Zi 7 ltac:(lia)); pose proof (Zi 8 ltac:(lia)); pose proof (Zi 9 ltac:(lia)).
    clear Zi Z. cbn [nth] in *. subst.
    assert (P10 : forall i, i < 10 -> nthb i [x00; x00; x00; x00; x00; x00; x00; x00; x00; x00; a10; a11; a12; a13; a14; a15] = 0%N).
    { intros i Hi. do 10 (destruct i as [|i]; [reflexivity|]). lia. }
    assert (P15 : (forall i, i < 15 -> nthb i [x00; x00; x00; x00; x00; x00; x00; x00; x00; x00; a10; a11; a12; a13; a14; a15] = 0%N)
      <-> (bval a10 = 0 /\ bval a11 = 0 /\ bval a12 = 0 /\ bval a13 = 0 /\ bval a14 = 0)%N).
    { split; intros K.
      - repeat split; [apply (K 10)|apply (K 11)|apply (K 12)|apply (K 13)|apply (K 14)]; lia.
      - intros i Hi. do 15 (destruct i as [|i]; [unfold nthb; cbn [nth]; (reflexivity || apply K)|]). lia. }
    assert (M : v4_mapped [x00; x00; x00; x00; x00; x00; x00; x00; x00; x00; a10; a11; a12; a13; a14; a15]
      <-> (bval a10 = 255 /\ bval a11 = 255)%N) by (unfold v4_mapped; tauto).
    unfold v6_local. rewrite P15, M. clear P10 P15 M.
    unfold v4_local, nthb. cbn [nth].
    unfold is_local, is_loopback, is_link_local_unicast, is_multicast, is_unspecified, to4, ip_equal.
    cbn [length Nat.eqb IPv4zero IPv6unspecified IPv6loopback IPv4 v4InV6Prefix app repeat andb].
    unfold all_zero, bget. cbn [firstn skipn forallb nth bytes_eqb Byte.eqb andb].
    rewrite !eqb_bval. change (bval x00) with 0%N. change (bval x01) with 1%N. change (bval xff) with 255%N.
    change (0 =? 0)%N with true. change (0 =? 254)%N with false. change (0 =? 255)%N with false.
    cbn [andb].
    destruct (bval a10 =? 255)%N eqn:E10; [destruct (bval a11 =? 255)%N eqn:E11|];
      cbn [andb nth]; rewrite ?land_mcast; cbn [orb].
    + replace (bval a10 =? 0)%N with false by lia. cbn [andb orb]. lia.
    + replace (bval a10 =? 0)%N with false by lia. cbn [andb orb]. lia.
    + cbn [andb orb]. clear H. lia.
  - assert (P10 : ~ forall i, i < 10 -> nthb i x = 0%N).
    { intros K. assert (all_zero (firstn 10 x) = true); [|congruence]. apply all_zero_iff.
      rewrite firstn_length, H. intros i Hi. cbn in Hi. unfold nthb.
      specialize (K i Hi). unfold nthb in K. rewrite <- (firstn_skipn 10 x), app_nth1 in K; [exact K|].
      rewrite firstn_length, H. exact Hi. }
    assert (P15 : ~ forall i, i < 15 -> nthb i x = 0%N).
    { intros K. apply P10. intros; apply K; lia. }
    assert (to4 x = None) as T4 by (unfold to4; rewrite H, Z; reflexivity).
    unfold is_local, is_loopback, is_link_local_unicast, is_multicast, is_unspecified, ip_equal. rewrite T4, H.
    cbn [length IPv6loopback IPv4zero IPv6unspecified repeat app IPv4 v4InV6Prefix Nat.eqb andb].
    rewrite !(bytes_eqb_zero_false x _ 10 Z) by reflexivity.
    unfold v6_local, v4_mapped, bget, nthb in *. rewrite land_ll. cbn [orb].
    revert P10 P15. generalize (forall i, i < 10 -> bval (nth i x x00) = 0%N) as A.
    generalize (forall i, i < 15 -> bval (nth i x x00) = 0%N) as B. intros B A P10 P15.
    rewrite !orb_true_iff, !andb_true_iff, !N.leb_le, !N.eqb_eq. intuition discriminate.
Qed.

Lemma is_local_spec x : length x = 16 -> (is_local (ip x) = true <-> sock_local x).
Proof.
  intros H. unfold ip, sock_local. pose proof (is_ipv6_spec x H) as K.
  destruct (is_ipv6 x).
  - rewrite is_local_v6 by exact H. tauto.
  - assert (tail_zero x).
    { assert (~ ~ tail_zero x) by (intro; apply K in H0; discriminate).
      rewrite tail_zero_iff in *. lia. }
    destruct (len16 x H) as (a0&a1&a2&a3&a4&a5&a6&a7&a8&a9&a10&a11&a12&a13&a14&a15&->).
    cbn [firstn]. rewrite is_local_v4. unfold nthb. cbn [nth]. tauto.
Qed.
