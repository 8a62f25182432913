(** net.ParseIP accepts nothing but the texts of addresses. *)
From Coq Require Import Strings.String List NArith ZArith Bool Arith Lia ZifyN ZifyNat ZifyBool.
From Verif Require Import GoBase GoBaseFacts NetIP Inetdiag Netlink SpecNetlink SpecConfig ConfigFacts IPTextFacts.
Import ListNotations.
Local Open Scope list_scope.
Local Open Scope nat_scope.

(** ** Dotted IPv4 *)
Lemma dtoi_go_sound s : forall n i v c r, dtoi_go n i s = Some (v, c, r) ->
  exists p, s = p ++ r /\ Forall decimal_digit p /\ v = dval n p /\ c = i + length p /\ 0 < c.
Proof.
  induction s as [|b s IH]; intros n i v c r H; cbn [dtoi_go] in H.
  - destruct (Nat.eqb i 0) eqn:E; [discriminate H|]. injection H as <- <- <-. exists []. repeat split; [constructor|cbn; lia|lia].
  - destruct (is_dig b) eqn:D.
    + destruct (big <=? n * 10 + (bval b - 48))%N; [discriminate H|]. apply IH in H. destruct H as (p & -> & F & -> & -> & L).
      exists (b :: p). split; [reflexivity|]. split; [constructor; [apply is_dig_iff, D|exact F]|]. split.
      * cbn [dval fold_left]. unfold dval. f_equal. lia.
      * cbn [length]. lia.
    + destruct (Nat.eqb i 0) eqn:E; [discriminate H|]. injection H as <- <- <-. exists []. repeat split; [constructor|cbn; lia|lia].
Qed.

Lemma dval_bound p : Forall decimal_digit p -> forall n, (n * 10 ^ N.of_nat (length p) <= dval n p)%N.
Proof.
  induction 1 as [|b p Hb Hp IH]; intros n; [cbn; lia|]. cbn [length dval fold_left].
  specialize (IH (10 * n + (bval b - 48))%N). unfold dval in IH. rewrite Nat2N.inj_succ, N.pow_succ_r'.
  etransitivity; [|exact IH]. nia.
Qed.
(** Digits without a leading zero below 256 are the decimal form. *)
Definition two_ok : bool := forallb (fun a => forallb (fun b =>
  (a =? 0) || bytes_eqb (dec (10 * a + b)) [byte_of (48 + a); byte_of (48 + b)])%N (map N.of_nat (seq 0 10))) (map N.of_nat (seq 0 10)).
Definition three_ok : bool := forallb (fun a => forallb (fun b => forallb (fun c =>
  (a =? 0) || bytes_eqb (dec (10 * (10 * a + b) + c)) [byte_of (48 + a); byte_of (48 + b); byte_of (48 + c)])%N
  (map N.of_nat (seq 0 10))) (map N.of_nat (seq 0 10))) (map N.of_nat (seq 0 10)).
Lemma in_ten n : (n < 10)%N -> In n (map N.of_nat (seq 0 10)).
Proof. intros H. apply in_map_iff. exists (N.to_nat n). split; [lia|]. apply in_seq. lia. Qed.
Lemma digit_of b : decimal_digit b -> exists d, (d < 10)%N /\ b = byte_of (48 + d) /\ (bval b - 48)%N = d.
Proof.
  unfold decimal_digit. intros H. exists (bval b - 48)%N. split; [lia|]. split; [|reflexivity].
  replace (48 + (bval b - 48))%N with (bval b) by lia. symmetry. apply byte_of_bval.
Qed.
Lemma dec_unique p : Forall decimal_digit p -> p <> [] -> (dval 0 p <= 255)%N -> (1 < length p -> bget 0 p <> 48%N) ->
  p = dec (dval 0 p).
Proof.
  intros F Hn Hv Hz.
  assert (L : length p <= 3).
  { destruct p as [|b p]; [congruence|]. destruct (Nat.le_gt_cases (length p) 2) as [|G]; [cbn [length]; lia|]. exfalso.
    inversion F as [|? ? Hb Hp]; subst. pose proof (dval_bound p Hp (10 * 0 + (bval b - 48))%N) as B.
    assert (Hb0 : bget 0 (b :: p) <> 48%N) by (apply Hz; cbn [length]; lia). unfold bget in Hb0. cbn [nth] in Hb0. unfold decimal_digit in Hb.
    assert (10 ^ 3 <= 10 ^ N.of_nat (length p))%N by (apply N.pow_le_mono_r; lia). change (10 ^ 3)%N with 1000%N in *.
    cbn [dval fold_left] in Hv. unfold dval in B. nia. }
  destruct p as [|b1 [|b2 [|b3 [|]]]]; [congruence| | | |cbn [length] in L; lia].
  - inversion F as [|? ? H1 _]; subst. destruct (digit_of b1 H1) as (d & Hd & E & V). cbn [dval fold_left].
    rewrite V, N.mul_0_r, N.add_0_l. rewrite E.
    assert (K : forallb (fun a => bytes_eqb (dec a) [byte_of (48 + a)]) (map N.of_nat (seq 0 10)) = true) by (vm_compute; reflexivity).
    rewrite forallb_forall in K. symmetry. apply bytes_eqb_eq, K, in_ten, Hd.
  - inversion F as [|? ? H1 F2]; subst. inversion F2 as [|? ? H2 _]; subst.
    destruct (digit_of b1 H1) as (d1 & Hd1 & E1 & V1). destruct (digit_of b2 H2) as (d2 & Hd2 & E2 & V2).
    assert (Z1 : (d1 =? 0)%N = false).
    { apply N.eqb_neq. intros ->. apply Hz; [cbn; lia|]. unfold bget. cbn [nth]. unfold decimal_digit in H1. lia. }
    cbn [dval fold_left]. rewrite V1, V2, N.mul_0_r, N.add_0_l, E1, E2.
    assert (K : two_ok = true) by (vm_compute; reflexivity). unfold two_ok in K. rewrite forallb_forall in K.
    specialize (K d1 (in_ten d1 Hd1)). rewrite forallb_forall in K. specialize (K d2 (in_ten d2 Hd2)). rewrite Z1 in K. cbn [orb] in K.
    symmetry. apply bytes_eqb_eq, K.
  - inversion F as [|? ? H1 F2]; subst. inversion F2 as [|? ? H2 F3]; subst. inversion F3 as [|? ? H3 _]; subst.
    destruct (digit_of b1 H1) as (d1 & Hd1 & E1 & V1). destruct (digit_of b2 H2) as (d2 & Hd2 & E2 & V2). destruct (digit_of b3 H3) as (d3 & Hd3 & E3 & V3).
    assert (Z1 : (d1 =? 0)%N = false).
    { apply N.eqb_neq. intros ->. apply Hz; [cbn; lia|]. unfold bget. cbn [nth]. unfold decimal_digit in H1. lia. }
    cbn [dval fold_left]. rewrite V1, V2, V3, N.mul_0_r, N.add_0_l, E1, E2, E3.
    assert (K : three_ok = true) by (vm_compute; reflexivity). unfold three_ok in K. rewrite forallb_forall in K.
    specialize (K d1 (in_ten d1 Hd1)). rewrite forallb_forall in K. specialize (K d2 (in_ten d2 Hd2)).
    rewrite forallb_forall in K. specialize (K d3 (in_ten d3 Hd3)). rewrite Z1 in K. cbn [orb] in K. symmetry. apply bytes_eqb_eq, K.
Qed.

Lemma v4_octet_sound s o r : v4_octet s = Some (o, r) -> exists n, (n < 256)%N /\ o = byte_of n /\ s = dec n ++ r.
Proof.
  unfold v4_octet, dtoi. intros H. destruct (dtoi_go 0 0 s) as [[[n c] r']|] eqn:D; [|discriminate H].
  destruct (255 <? n)%N eqn:B; [discriminate H|].
  destruct (Nat.ltb 1 c && (bget 0 s =? 48)%N) eqn:Z; [discriminate H|]. injection H as <- <-.
  apply dtoi_go_sound in D. destruct D as (p & E & F & -> & -> & L). exists (dval 0 p). split; [lia|]. split; [reflexivity|].
  assert (Hp : p <> []) by (intros ->; cbn in L; lia).
  rewrite <- dec_unique; [exact E|exact F|exact Hp|lia|].
  intros Lp Q. destruct p as [|b p]; [congruence|]. subst s. unfold bget in *. cbn [app nth] in *. cbn [plus] in Z. rewrite Q in Z. cbn [length] in *. lia.
Qed.
Lemma dot_sound s r : dot s = Some r -> s = x2e :: r.
Proof.
  unfold dot. destruct s as [|b s]; [discriminate|]. destruct (bval b =? 46)%N eqn:E; [|discriminate]. intros H. injection H as ->.
  f_equal. apply bval_inj. apply N.eqb_eq in E. exact E.
Qed.
Lemma parse_ipv4_sound s x : parse_ipv4 s = Some x -> exists a b c d, (a < 256 /\ b < 256 /\ c < 256 /\ d < 256)%N /\ s = dotted a b c d /\
  x = IPv4 (byte_of a) (byte_of b) (byte_of c) (byte_of d).
Proof.
  unfold parse_ipv4. intros H.
  destruct (v4_octet s) as [[a s1]|] eqn:E1; [|discriminate H]. destruct (dot s1) as [s1'|] eqn:D1; [|discriminate H].
  destruct (v4_octet s1') as [[b s2]|] eqn:E2; [|discriminate H]. destruct (dot s2) as [s2'|] eqn:D2; [|discriminate H].
  destruct (v4_octet s2') as [[c s3]|] eqn:E3; [|discriminate H]. destruct (dot s3) as [s3'|] eqn:D3; [|discriminate H].
  destruct (v4_octet s3') as [[d [|]]|] eqn:E4; [|discriminate H|discriminate H]. injection H as <-.
  apply dot_sound in D1, D2, D3. apply v4_octet_sound in E1, E2, E3, E4.
  destruct E1 as (na & Ba & -> & ->), E2 as (nb & Bb & -> & ->), E3 as (nc & Bc & -> & ->), E4 as (nd & Bd & -> & ->). subst.
  exists na, nb, nc, nd. split; [auto|]. split; [|reflexivity]. unfold dotted. cbn [app]. rewrite app_nil_r. reflexivity.
Qed.

(** ** IPv6 *)
Lemma xtoi_go_sound s : forall n i v c r, xtoi_go n i s = Some (v, c, r) ->
  exists p, s = p ++ r /\ hexl n p v /\ c = i + length p /\ 0 < c.
Proof.
  induction s as [|b s IH]; intros n i v c r H; cbn [xtoi_go] in H.
  - destruct (Nat.eqb i 0) eqn:E; [discriminate H|]. injection H as <- <- <-. exists []. repeat split; [constructor|cbn; lia|lia].
  - destruct (hexv b) as [d|] eqn:D.
    + destruct (big <=? n * 16 + d)%N; [discriminate H|]. apply IH in H. destruct H as (p & -> & F & -> & L).
      exists (b :: p). split; [reflexivity|]. split; [econstructor; [exact D|]; replace (16 * n + d)%N with (n * 16 + d)%N by lia; exact F|]. cbn [length]. lia.
    + destruct (Nat.eqb i 0) eqn:E; [discriminate H|]. injection H as <- <- <-. exists []. repeat split; [constructor|cbn; lia|lia].
Qed.
Lemma hexl_last p : forall n b v, hexl n (p ++ [b]) v -> exists w d, hexl n p w /\ hexv b = Some d /\ v = (16 * w + d)%N.
Proof.
  induction p as [|c p IH]; intros n b v H; cbn [app] in H; inversion H as [|? ? d ? ? Hd H']; subst.
  - inversion H'; subst. exists n, d. split; [constructor|]. split; [exact Hd|reflexivity].
  - apply IH in H'. destruct H' as (w & d' & H' & Hb & ->). exists w, d'. split; [econstructor; eassumption|]. split; [exact Hb|reflexivity].
Qed.
Lemma hexl_hex_value p : forall v, hexl 0 p v -> hex_value p v.
Proof.
  induction p as [|b p IH] using rev_ind; intros v H; [inversion H; constructor|].
  apply hexl_last in H. destruct H as (w & d & H & Hb & ->). constructor; [apply IH, H|apply hexv_iff, Hb].
Qed.
Lemma xtoi_sound s v c r : xtoi s = Some (v, c, r) -> (v <= 65535)%N -> exists p, s = p ++ r /\ hex_group p v.
Proof.
  intros H B. apply xtoi_go_sound in H. destruct H as (p & -> & H & -> & L). exists p. split; [reflexivity|].
  split; [intros ->; cbn in L; lia|]. split; [apply hexl_hex_value, H|lia].
Qed.

(** What the loop has read. *)
Definition loop_ok (acc : bytes) (ell : option nat) (s : bytes) (acc' : bytes) (ell' : option nat) : Prop :=
  (ell' = ell /\ exists b k, groups true s b k /\ acc' = acc ++ b)
  \/ (ell = None /\ exists t1 b1 n1 t2 b2 n2, groups false t1 b1 n1 /\ opt_groups true t2 b2 n2 /\ s = t1 ++ [x3a; x3a] ++ t2 /\
        ell' = Some (length (acc ++ b1)) /\ acc' = acc ++ b1 ++ b2).
Lemma loop_sound n : forall acc ell s acc' ell', s <> [] -> length acc + 2 * n <= 16 ->
  v6_loop n acc ell s = Some (acc', ell', []) -> loop_ok acc ell s acc' ell' /\ length acc' <= 16.
Proof.
  induction n as [|n IH]; intros acc ell s acc' ell' Hs HL H; cbn [v6_loop] in H.
  - exfalso. injection H as _ _ H. contradiction.
  - destruct (xtoi s) as [[[v c] r]|] eqn:X; [|discriminate H].
    destruct (65535 <? v)%N eqn:B; [discriminate H|].
    destruct (xtoi_sound s v c r X ltac:(lia)) as (p & Ep & G).
    destruct r as [|b r].
    + injection H as <- <-. split; [left; split; [reflexivity|]|rewrite app_length; cbn [length]; lia].
      exists [byte_of (v / 256); byte_of v], 1. split; [|reflexivity]. rewrite Ep, app_nil_r. constructor. exact G.
    + destruct (bval b =? 46)%N eqn:Dot.
      * destruct (match ell with None => negb (Nat.eqb (length acc) 12) | Some _ => false end); [discriminate H|].
        destruct (16 <? length acc + 4) eqn:L4; [discriminate H|].
        destruct (parse_ipv4 s) as [ip4|] eqn:P4; [|discriminate H]. injection H as <- <-.
        apply parse_ipv4_sound in P4. destruct P4 as (a1 & a2 & a3 & a4 & Ba & Es & ->).
        split; [left; split; [reflexivity|]|rewrite app_length; cbn; lia].
        exists [byte_of a1; byte_of a2; byte_of a3; byte_of a4], 2. split; [|reflexivity]. rewrite Es. constructor; [reflexivity|exact Ba].
      * destruct (bval b =? 58)%N eqn:Col; [|discriminate H]. cbn [negb] in H.
        assert (Eb : b = x3a) by (apply bval_inj; change (bval x3a) with 58%N; lia). subst b.
        destruct r as [|b2 r2]; [discriminate H|].
        destruct (bval b2 =? 58)%N eqn:Col2.
        -- destruct ell as [e|]; [discriminate H|].
           assert (Eb : b2 = x3a) by (apply bval_inj; change (bval x3a) with 58%N; lia). subst b2.
           destruct r2 as [|b3 r3].
           ++ injection H as <- <-. split; [right; split; [reflexivity|]|rewrite app_length; cbn [length]; lia].
              exists p, [byte_of (v / 256); byte_of v], 1, [], [], 0. split; [constructor; exact G|]. split; [left; auto|].
              split; [rewrite Ep; reflexivity|]. split; [reflexivity|]. rewrite app_nil_r. reflexivity.
           ++ apply IH in H; [|discriminate|rewrite app_length; cbn [length]; lia]. destruct H as [[(-> & b & k & Gb & ->)|(K & _)] Ll]; [|discriminate K].
              split; [|exact Ll]. right. split; [reflexivity|]. exists p, [byte_of (v / 256); byte_of v], 1, (b3 :: r3), b, k.
              split; [constructor; exact G|]. split; [right; exact Gb|]. split; [rewrite Ep; reflexivity|]. split; [reflexivity|]. rewrite <- app_assoc. reflexivity.
        -- apply IH in H; [|discriminate|rewrite app_length; cbn [length]; lia].
           destruct H as [[(-> & b & k & Gb & ->)|(-> & t1 & b1 & n1 & t2 & b2' & n2 & G1 & G2 & Es & -> & ->)] Ll]; (split; [|exact Ll]).
           ++ left. split; [reflexivity|]. exists (byte_of (v / 256) :: byte_of v :: b), (S k). split; [rewrite Ep; constructor; assumption|].
              rewrite <- app_assoc. reflexivity.
           ++ right. split; [reflexivity|]. exists (p ++ x3a :: t1), (byte_of (v / 256) :: byte_of v :: b1), (S n1), t2, b2', n2.
              split; [constructor; assumption|]. split; [exact G2|]. split; [rewrite Ep, Es, <- app_assoc; reflexivity|].
              rewrite <- !app_assoc. cbn [app]. split; reflexivity.
Qed.

Lemma some_eq (a b : bytes) : Some a = Some b -> b = a. Proof. congruence. Qed.
Lemma opt_groups_len v4 t b n : opt_groups v4 t b n -> length b = 2 * n.
Proof. intros [(-> & -> & ->)|G]; [reflexivity|]. apply groups_len in G. lia. Qed.

Lemma finish_sound s x : s <> [] -> v6_finish (v6_loop 8 [] None s) = Some x -> ipv6_text s x.
Proof.
  intros Hs H. destruct (v6_loop 8 [] None s) as [[[acc ell] [|]]|] eqn:L; [|discriminate H|discriminate H].
  apply loop_sound in L; [|exact Hs|cbn; lia]. destruct L as [[(-> & b & k & G & ->)|(_ & t1 & b1 & n1 & t2 & b2 & n2 & G1 & G2 & -> & -> & ->)] Ll];
    cbn [app] in *; cbn [v6_finish] in H.
  - destruct (length b <? 16) eqn:Lb; [discriminate H|]. injection H as <-. destruct (groups_len _ _ _ _ G) as [Lk _].
    constructor. replace 8 with k by lia. exact G.
  - destruct (length (b1 ++ b2) <? 16) eqn:Lb; [|discriminate H]. apply some_eq in H. subst x.
    destruct (groups_len _ _ _ _ G1) as [L1 _]. pose proof (opt_groups_len _ _ _ _ G2) as L2. rewrite app_length in *.
    rewrite firstn_app, firstn_all, Nat.sub_diag, firstn_O, app_nil_r, skipn_app, skipn_all, Nat.sub_diag, skipn_O. cbn [app].
    replace (16 - (length b1 + length b2)) with (16 - 2 * (n1 + n2)) by lia.
    apply (v6_compressed t1 b1 n1 t2 b2 n2); [right; exact G1|exact G2|lia].
Qed.
Lemma parse_ipv6_sound s x : parse_ipv6 s = Some x -> ipv6_text s x.
Proof.
  intros H. destruct s as [|b1 [|b2 r]]; [discriminate H|apply finish_sound; [discriminate|exact H]|].
  unfold parse_ipv6 in H. destruct ((bval b1 =? 58) && (bval b2 =? 58))%N eqn:E; [|apply finish_sound; [discriminate|exact H]].
  assert (E1 : b1 = x3a) by (apply bval_inj; change (bval x3a) with 58%N; lia). assert (E2 : b2 = x3a) by (apply bval_inj; change (bval x3a) with 58%N; lia). subst.
  destruct r as [|b r].
  - injection H as <-. apply (v6_compressed [] [] 0 [] [] 0); [left; auto|left; auto|lia].
  - destruct (v6_loop 8 [] (Some 0) (b :: r)) as [[[acc ell] [|]]|] eqn:L; [|discriminate H|discriminate H].
    apply loop_sound in L; [|discriminate|cbn; lia]. destruct L as [[(-> & c & k & G & ->)|(K & _)] Ll]; [|discriminate K].
    cbn [app] in *. cbn [v6_finish firstn skipn app] in H. destruct (length c <? 16) eqn:Lb; [|discriminate H]. apply some_eq in H. subst x.
    destruct (groups_len _ _ _ _ G) as [Lk _].
    replace (16 - length c) with (16 - 2 * (0 + k)) by lia.
    apply (v6_compressed [] [] 0 (b :: r) c k); [left; auto|right; exact G|lia].
Qed.

Lemma parse_ip_iff t x : parse_ip t = Some x <-> ip_text t x.
Proof.
  split.
  - intros H. unfold parse_ip in H. destruct (first_sep t) as [c|]; [|discriminate H]. destruct (c =? 46)%N.
    + left. apply parse_ipv4_sound in H. destruct H as (a & b & c' & d & B & -> & ->). exists a, b, c', d. split; [exact B|]. split; reflexivity.
    + right. apply parse_ipv6_sound, H.
  - intros [(a & b & c & d & (Ha & Hb & Hc & Hd) & -> & ->)|H].
    + apply (parse_ip_dotted a b c d Ha Hb Hc Hd).
    + apply parse_ip_v6, H.
Qed.

(** AddDstIP takes the texts of addresses and no others. *)
Lemma add_dst_accepts ex s : add_dst_ip ex s = Fail ErrInvalidIP <-> ~ exists x, ip_text s x.
Proof.
  unfold add_dst_ip. destruct (parse_ip s) as [x|] eqn:E.
  - split; [discriminate|]. intros H. exfalso. apply H. exists x. apply parse_ip_iff, E.
  - split; [|reflexivity]. intros _ [x H]. apply parse_ip_iff in H. congruence.
Qed.
