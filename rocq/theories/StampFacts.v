(** base64 and RFC 3339 texts: the decoders accept exactly these. *)
From Coq Require Import Strings.String List NArith ZArith Bool Lia ZifyBool ZifyN ZifyNat.
From Verif Require Import GoBase GoBaseFacts GoTime TimeFacts Rfc3339 Rfc3339Facts Base64 Json SpecJson SpecGrammar SpecDecode JsonFacts GrammarFacts SpellFacts.
Import ListNotations.
Local Open Scope list_scope.

(** ** base64 *)
Lemma index_some c l : forall i k, index_of c l i = Some k -> (i <= k)%N /\ nth_error l (N.to_nat (k - i)) = Some c.
Proof.
  induction l as [|x l IH]; intros i k H; [discriminate|]. cbn [index_of] in H. destruct (Byte.eqb x c) eqn:E.
  - injection H as <-. apply byte_eqb_eq in E as ->. split; [lia|]. replace (i - i)%N with 0%N by lia. reflexivity.
  - apply IH in H as [L H]. split; [lia|]. replace (N.to_nat (k - i)) with (S (N.to_nat (k - (i + 1)))) by lia. exact H.
Qed.
Lemma sextet_iff c i : b64_value c = Some i <-> sextet c i.
Proof.
  unfold sextet. split.
  - intros H. apply index_some in H as [_ H]. rewrite N.sub_0_r in H. exact H.
  - intros H. assert (L : (N.to_nat i < 64)%nat) by (apply (nth_error_Some alphabet); unfold alphabet; rewrite H; discriminate).
    rewrite <- (N2Nat.id i). set (n := N.to_nat i) in *. clearbody n. clear i. revert H.
    do 64 (destruct n as [|n]; [intros [= <-]; reflexivity|]). exfalso. lia.
Qed.
Lemma sextet_small c i : sextet c i -> (i < 64)%N.
Proof.
  unfold sextet. intros H. assert (L : (N.to_nat i < 64)%nat) by (apply (nth_error_Some alphabet); unfold alphabet; rewrite H; discriminate). lia.
Qed.
Lemma sextet_pad i : ~ sextet x3d i.
Proof. intros H. apply sextet_iff in H. discriminate H. Qed.
Lemma byte_of_mod x y : (x mod 256 = y mod 256)%N -> byte_of x = byte_of y.
Proof. intros H. apply bval_inj. rewrite !bval_byte_of. exact H. Qed.
Lemma quanta_iff n : forall l b, length l <= n -> (b64_quanta l = Some b <-> groups l b).
Proof.
  induction n as [|n IH]; intros l b L.
  - destruct l; [|cbn in L; lia]. split; [intros [= <-]; constructor|intros H; inversion H; reflexivity].
  - destruct l as [|a [|b0 [|c [|d r]]]].
    + split; [intros [= <-]; constructor|intros H; inversion H; reflexivity].
    + split; [discriminate|intros H; inversion H].
    + split; [discriminate|intros H; inversion H].
    + split; [discriminate|intros H; inversion H].
    + cbn [b64_quanta]. split.
      * destruct (b64_value a) as [i|] eqn:A; [|discriminate]. destruct (b64_value b0) as [j|] eqn:B; [|discriminate].
        apply sextet_iff in A, B. pose proof (sextet_small _ _ A). pose proof (sextet_small _ _ B).
        destruct (Byte.eqb d pad) eqn:D.
        -- apply byte_eqb_eq in D as ->. destruct r; [|discriminate]. destruct (Byte.eqb c pad) eqn:C.
           ++ apply byte_eqb_eq in C as ->. intros [= <-]. replace (i * 4 + j / 16)%N with ((i * 64 + j) / 16)%N by (Z.to_euclidean_division_equations; lia).
              apply groups_pad2; assumption.
           ++ destruct (b64_value c) as [k|] eqn:C'; [|discriminate]. apply sextet_iff in C'. pose proof (sextet_small _ _ C'). intros [= <-].
              rewrite (byte_of_mod (i * 4 + j / 16) ((i * 4096 + j * 64 + k) / 1024)) by (Z.to_euclidean_division_equations; lia).
              rewrite (byte_of_mod (j * 16 + k / 4) ((i * 4096 + j * 64 + k) / 4)) by (Z.to_euclidean_division_equations; lia).
              apply groups_pad1; assumption.
        -- destruct (b64_value c) as [k|] eqn:C'; [|discriminate]. destruct (b64_value d) as [m|] eqn:D'; [|discriminate].
           apply sextet_iff in C', D'. pose proof (sextet_small _ _ C'). pose proof (sextet_small _ _ D').
           destruct (b64_quanta r) as [t|] eqn:R; [|discriminate]. intros [= <-].
           rewrite (byte_of_mod (i * 4 + j / 16) ((i * 262144 + j * 4096 + k * 64 + m) / 65536)) by (Z.to_euclidean_division_equations; lia).
           rewrite (byte_of_mod (j * 16 + k / 4) ((i * 262144 + j * 4096 + k * 64 + m) / 256)) by (Z.to_euclidean_division_equations; lia).
           rewrite (byte_of_mod (k * 64 + m) (i * 262144 + j * 4096 + k * 64 + m)) by (Z.to_euclidean_division_equations; lia).
           apply groups_more; try assumption. apply IH; [cbn in L; lia|exact R].
      * intros H. inversion H as [|? ? i j A B|? ? ? i j k A B C|? ? ? ? i j k m ? t A B C D R]; subst;
          pose proof (sextet_small _ _ A); pose proof (sextet_small _ _ B).
        -- apply sextet_iff in A, B. rewrite A, B. change (Byte.eqb x3d pad) with true. cbv iota. f_equal. f_equal. apply byte_of_mod. Z.to_euclidean_division_equations; lia.
        -- pose proof (sextet_small _ _ C). assert (N : c <> pad) by (intros ->; exact (sextet_pad _ C)).
           apply sextet_iff in A, B, C. rewrite A, B, C. change (Byte.eqb x3d pad) with true. cbv iota. rewrite (proj2 (byte_eqb_neq _ _) N).
           f_equal. f_equal; [|f_equal]; apply byte_of_mod; Z.to_euclidean_division_equations; lia.
        -- pose proof (sextet_small _ _ C). pose proof (sextet_small _ _ D). assert (N : d <> pad) by (intros ->; exact (sextet_pad _ D)).
           apply sextet_iff in A, B, C, D. rewrite A, B, C, D, (proj2 (byte_eqb_neq _ _) N). apply (IH r t) in R; [|cbn in L; lia]. rewrite R.
           f_equal. f_equal; [|f_equal; [|f_equal]]; apply byte_of_mod; Z.to_euclidean_division_equations; lia.
Qed.
Lemma unbroken_iff l : forall l', unbroken l l' <-> filter (fun c => negb (Byte.eqb c x0a || Byte.eqb c x0d)) l = l'.
Proof.
  induction l as [|c l IH]; intros l'; [split; [intros H; inversion H; reflexivity|intros <-; constructor]|]. cbn [filter].
  destruct (Byte.eqb c x0a || Byte.eqb c x0d) eqn:E; cbn [negb].
  - rewrite orb_true_iff, !byte_eqb_eq in E. split.
    + intros H. inversion H as [|? ? ? C K|? ? ? C1 C2 K]; subst; [apply IH, K|]. destruct E; contradiction.
    + intros H. constructor; [exact E|apply IH, H].
  - rewrite orb_false_iff, !byte_eqb_neq in E. destruct E as [E1 E2]. split.
    + intros H. inversion H as [|? ? ? C K|? ? ? C1 C2 K]; subst; [destruct C; contradiction|]. f_equal. apply IH, K.
    + intros <-. constructor; [exact E1|exact E2|]. apply IH. reflexivity.
Qed.
Lemma base64_iff s b : b64_decode s = Some b <-> base64 s b.
Proof.
  unfold b64_decode, base64. split.
  - intros H. eexists. split; [apply unbroken_iff; reflexivity|]. apply (quanta_iff _ _ _ (le_n _)), H.
  - intros (s' & U & G). apply unbroken_iff in U. rewrite U. apply (quanta_iff _ _ _ (le_n _)), G.
Qed.

(** ** Times *)
Local Open Scope Z_scope.
Lemma valdr_len l : forall l', length l = length l' -> Forall digit l -> Forall digit l' -> valdr l = valdr l' -> l = l'.
Proof.
  induction l as [|c l IH]; intros [|c' l'] L D D' E; try discriminate L; [reflexivity|].
  inversion D as [|? ? D1 D2]; subst. inversion D' as [|? ? D1' D2']; subst. unfold valdr in E. cbn [fold_right] in E. fold (valdr l) (valdr l') in E.
  unfold digit in D1, D1'. assert (bval c = bval c' /\ valdr l = valdr l') as [E1 E2] by lia. apply bval_inj in E1 as ->. f_equal.
  injection L as L. apply IH; assumption.
Qed.
Lemma digits_Forall l : digits l <-> Forall digit l.
Proof. unfold digits. rewrite !Forall_forall. split; intros H c I; apply digit_iff, H, I. Qed.
Lemma vald_len l l' : length l = length l' -> digits l -> digits l' -> vald l = vald l' -> l = l'.
Proof.
  intros L D D' E. rewrite <- (rev_involutive l), <- (rev_involutive l'). f_equal. apply digits_Forall in D, D'. apply valdr_len.
  - rewrite !rev_length. exact L.
  - apply Forall_rev, D.
  - apply Forall_rev, D'.
  - rewrite <- !vald_rev, !rev_involutive. exact E.
Qed.
Lemma vald_bound l : digits l -> (vald l < 10 ^ N.of_nat (length l))%N.
Proof.
  intros D. rewrite <- (rev_involutive l), vald_rev, rev_length. apply digits_Forall, Forall_rev in D. set (r := rev l) in *. clearbody r.
  replace (length l) with (length l) by reflexivity. clear l. induction D as [|c r C _ IH]; [cbn; lia|]. unfold valdr. cbn [fold_right length]. fold (valdr r).
  rewrite Nat2N.inj_succ, N.pow_succ_r'. unfold digit in C. lia.
Qed.
Lemma uint_some s : forall x z, uint_go x s = Some z -> digits s.
Proof.
  induction s as [|c s IH]; intros x z H; [constructor|]. cbn [uint_go] in H. destruct (digit_char c) eqn:D; [|discriminate].
  constructor; [exact D|]. eapply IH, H.
Qed.
Lemma parse_uint_iff k s lo hi x : length s = k -> (0 < k)%nat -> 0 <= lo -> hi < 10 ^ Z.of_nat k ->
  (parse_uint s lo hi = Some x <-> s = dec_pad k (Z.to_N x) /\ lo <= x <= hi).
Proof.
  intros L K Lo Hi. unfold parse_uint. split.
  - destruct (uint_go 0 s) as [y|] eqn:U; [|discriminate]. pose proof (uint_some _ _ _ U) as D. rewrite (uint_digits _ D) in U. injection U as <-.
    destruct ((Z.of_N (vald s) <? lo) || (hi <? Z.of_N (vald s))) eqn:B; [discriminate|]. intros [= <-]. split; [|lia].
    rewrite N2Z.id. pose proof (vald_bound s D) as Bd. rewrite L in Bd. destruct (dec_pad_facts k (vald s) K Bd) as (L' & D' & V').
    apply vald_len; congruence.
  - intros [E B]. assert (Bd : (Z.to_N x < 10 ^ N.of_nat k)%N).
    { apply N2Z.inj_lt. rewrite N2Z.inj_pow, Z2N.id, nat_N_Z by lia. change (Z.of_N 10) with 10. lia. }
    destruct (dec_pad_facts k (Z.to_N x) K Bd) as (L' & D' & V'). rewrite <- E in D', V'. rewrite (uint_digits _ D'), V', Z2N.id by lia.
    destruct (Z.ltb_spec x lo), (Z.ltb_spec hi x); try lia. reflexivity.
Qed.
Lemma two_shape n : 0 <= n <= 99 -> exists a b, two n = [a; b].
Proof.
  intros H. destruct (dec_pad_facts 2 (Z.to_N n) ltac:(lia)) as (L & _); [change (10 ^ N.of_nat 2)%N with 100%N; lia|].
  unfold two. destruct (dec_pad 2 (Z.to_N n)) as [|a [|b [|? ?]]]; try discriminate L. eauto.
Qed.
Lemma parse_two a b lo hi x : 0 <= lo -> hi < 100 -> (parse_uint [a; b] lo hi = Some x <-> [a; b] = two x /\ lo <= x <= hi).
Proof. intros L H. apply (parse_uint_iff 2); [reflexivity|lia|exact L|exact H]. Qed.
Definition offset_in (hmax mmax : Z) (z : bytes) (off : Z) : Prop :=
  (z = str "Z" /\ off = 0%Z) \/
  exists h m, (0 <= h <= hmax)%Z /\ (0 <= m <= mmax)%Z /\
    ((z = str "+" ++ two h ++ str ":" ++ two m /\ off = h * 60 + m)%Z \/ (z = str "-" ++ two h ++ str ":" ++ two m /\ off = - (h * 60 + m))%Z).
Lemma zone_iff hmax mmax s off : hmax < 100 -> mmax < 100 -> zone_in hmax mmax s = Some off <-> offset_in hmax mmax s off.
Proof.
  intros Hmax Mmax. unfold offset_in. split.
  - destruct s as [|sg [|a [|b [|q [|c [|d [|? ?]]]]]]]; try discriminate; cbn [zone_in].
    + destruct (Byte.eqb sg x5a) eqn:E; [|discriminate]. apply byte_eqb_eq in E as ->. intros [= <-]. left. split; reflexivity.
    + destruct (Byte.eqb q x3a) eqn:Q; [|discriminate]. apply byte_eqb_eq in Q as ->.
      destruct (parse_uint [a; b] 0 hmax) as [h|] eqn:H; [|discriminate]. destruct (parse_uint [c; d] 0 mmax) as [m|] eqn:M; [|discriminate].
      apply parse_two in H as [H Bh]; [|lia|lia]. apply parse_two in M as [M Bm]; [|lia|lia]. intros K. right. exists h, m. split; [exact Bh|]. split; [exact Bm|].
      rewrite <- H, <- M. destruct (Byte.eqb sg x2d) eqn:S1.
      * apply byte_eqb_eq in S1 as ->. injection K as <-. right. split; reflexivity.
      * destruct (Byte.eqb sg x2b) eqn:S2; [|discriminate]. apply byte_eqb_eq in S2 as ->. injection K as <-. left. split; reflexivity.
  - intros [[-> ->]|(h & m & Bh & Bm & K)]; [reflexivity|].
    destruct (two_shape h) as (a & b & H); [lia|]. destruct (two_shape m) as (c & d & M); [lia|].
    pose proof (proj2 (parse_two a b 0 hmax h ltac:(lia) ltac:(lia)) (conj (eq_sym H) Bh)) as Ph.
    pose proof (proj2 (parse_two c d 0 mmax m ltac:(lia) ltac:(lia)) (conj (eq_sym M) Bm)) as Pm.
    rewrite H, M in K. destruct K as [[-> ->]|[-> ->]].
    + change (str "+" ++ [a; b] ++ str ":" ++ [c; d]) with [x2b; a; b; x3a; c; d]. cbn [zone_in]. rewrite Ph, Pm. reflexivity.
    + change (str "-" ++ [a; b] ++ str ":" ++ [c; d]) with [x2d; a; b; x3a; c; d]. cbn [zone_in]. rewrite Ph, Pm. reflexivity.
Qed.
Lemma offset_iff s off : parse_zone s = Some off <-> offset s off.
Proof. apply (zone_iff 23 59); lia. Qed.
Lemma lax_offset_iff s off : zone_in 99 99 s = Some off <-> lax_offset s off.
Proof. apply (zone_iff 99 99); lia. Qed.
Lemma offset_lax s off : offset s off -> lax_offset s off.
Proof. intros [K|(h & m & Bh & Bm & K)]; [left; exact K|]. right. exists h, m. split; [lia|]. split; [lia|exact K]. Qed.
Lemma offset_head z off : lax_offset z off -> exists c r, z = c :: r /\ digit_char c = false /\ c <> x2e /\ c <> x2c.
Proof.
  intros [[-> _]|(h & m & _ & _ & [[-> _]|[-> _]])]; eexists _, _; (split; [reflexivity|]); (split; [reflexivity|]); (split; discriminate).
Qed.
Lemma subsecond_iff r ns z off : lax_offset z off ->
  (parse_nano r = (ns, z) <-> exists f, r = f ++ z /\ subsecond f ns).
Proof.
  intros Z. destruct (offset_head z off Z) as (cz & tz & Ez & Dz & Nz & _).
  assert (F9 : forall d, firstn 9 (d ++ repeat x30 9) = firstn 9 d ++ repeat x30 (9 - length (firstn 9 d))).
  { intros d. rewrite firstn_app, firstn_length. f_equal. destruct (Nat.le_ge_cases 9 (length d)) as [L|L].
    - replace (9 - length d)%nat with 0%nat by lia. replace (9 - Nat.min 9 (length d))%nat with 0%nat by lia. reflexivity.
    - replace (9 - Nat.min 9 (length d))%nat with (9 - length d)%nat by lia. generalize (length d). intros k.
      do 10 (destruct k as [|k]; [reflexivity|]). replace (9 - S (S (S (S (S (S (S (S (S (S k))))))))))%nat with 0%nat by lia. reflexivity. }
  assert (Df : forall d, Forall digit d -> digits (firstn 9 d)).
  { intros d D. apply digits_Forall. rewrite <- (firstn_skipn 9 d) in D. apply Forall_app in D. exact (proj1 D). }
  assert (Lf : forall d : bytes, (length (firstn 9 d) <= 9)%nat) by (intros d; rewrite firstn_length; lia).
  assert (V : forall d ns, Forall digit d -> (firstn 9 (d ++ repeat x30 9) = dec_pad 9 (Z.to_N ns) /\ 0 <= ns < 1000000000 <->
              Z.of_N (vald (firstn 9 d)) * 10 ^ (9 - Z.of_nat (length (firstn 9 d))) = ns)).
  { intros d n D. rewrite F9. specialize (Df d D). specialize (Lf d). set (e := firstn 9 d) in *. clearbody e. clear F9 D d.
    set (k := (9 - length e)%nat). pose proof (uint_zeros k _ e (uint_digits e Df) Df) as U.
    assert (Dk : digits (e ++ repeat x30 k)).
    { apply Forall_app. split; [exact Df|]. apply Forall_forall. intros c Hc. apply repeat_spec in Hc. subst c. reflexivity. }
    assert (Lk : length (e ++ repeat x30 k) = 9%nat) by (rewrite app_length, repeat_length; lia).
    pose proof (vald_bound _ Dk) as Bk. rewrite Lk in Bk. change (10 ^ N.of_nat 9)%N with 1000000000%N in Bk.
    rewrite (uint_digits _ Dk) in U. injection U as U. replace (9 - Z.of_nat (length e)) with (Z.of_nat k) by lia. rewrite <- U. split.
    - intros [E B]. destruct (dec_pad_facts 9 (Z.to_N n)) as (_ & _ & Vn); [lia|change (10 ^ N.of_nat 9)%N with 1000000000%N; lia|]. rewrite E, Vn. lia.
    - intros <-. split; [|lia]. rewrite N2Z.id. destruct (dec_pad_facts 9 (vald (e ++ repeat x30 k))) as (L1 & D1 & V1); [lia|change (10 ^ N.of_nat 9)%N with 1000000000%N; lia|].
      apply vald_len; congruence. }
  split.
  - intros H. assert (K : r = x2e :: tl r \/ (parse_nano r = (0, r))).
    { destruct r as [|c r]; [right; reflexivity|]. destruct c; try (right; reflexivity). left. reflexivity. }
    destruct K as [K|K].
    + set (t := tl r) in *. clearbody t. subst r. cbn [parse_nano] in H. destruct (span_digits t) as [[|c ds] r'] eqn:S.
      * injection H as <- H. exfalso. rewrite Ez in H. injection H as <- _. contradiction Nz. reflexivity.
      * injection H as H <-. apply span_sound in S as [-> D]. exists (x2e :: c :: ds). split; [reflexivity|]. right. exists (c :: ds).
        split; [reflexivity|]. split; [discriminate|]. split; [exact D|]. apply V; [exact D|].
        change (match uint_go 0 (firstn 9 (c :: ds)) with Some x => x | None => 0 end * 10 ^ (9 - Z.of_nat (length (firstn 9 (c :: ds)))) = ns) in H.
        rewrite (uint_digits _ (Df _ D)) in H. exact H.
    + rewrite K in H. injection H as <- <-. exists []. split; [reflexivity|]. left. split; reflexivity.
  - intros (f & -> & [[-> ->]|(d & -> & N & D & E)]).
    + cbn [app]. rewrite Ez. cbn [parse_nano]. destruct cz; try reflexivity. contradiction Nz. reflexivity.
    + cbn [app parse_nano]. rewrite (span_complete d D).
      * destruct d as [|c d]; [contradiction|]. apply V in E; [|exact D]. f_equal.
        change (match uint_go 0 (firstn 9 (c :: d)) with Some x => x | None => 0 end * 10 ^ (9 - Z.of_nat (length (firstn 9 (c :: d)))) = ns).
        rewrite (uint_digits _ (Df _ D)). exact E.
      * rewrite Ez. cbn. intros X. apply digit_iff in X. congruence.
Qed.
Lemma make_date_number y m d hh mm ss ns : valid_date y m d ->
  make_date y m d hh mm ss ns = ((day_number y m d - 719162) * 86400 + hh * 3600 + mm * 60 + ss) * second + ns.
Proof.
  intros [Hm Hd]. unfold make_date. rewrite days_since_start. destruct (month_facts y m Hm) as [_ M]. unfold day_number. cbv zeta. lia.
Qed.
Lemma stamp_iff raw t : parse_rfc3339 raw = Some t <-> stamp raw t.
Proof.
  split.
  - intros H. unfold parse_rfc3339 in H. destruct raw as [|y1 [|y2 [|y3 [|y4 [|c1 raw]]]]]; try discriminate H.
    destruct c1; try discriminate H. destruct raw as [|m1 [|m2 [|c2 raw]]]; try discriminate H. destruct c2; try discriminate H.
    destruct raw as [|d1 [|d2 [|c3 raw]]]; try discriminate H. destruct c3; try discriminate H.
    destruct raw as [|h1 [|h2 [|c4 raw]]]; try discriminate H. destruct c4; try discriminate H.
    destruct raw as [|i1 [|i2 [|c5 raw]]]; try discriminate H. destruct c5; try discriminate H.
    destruct raw as [|s1 [|s2 r]]; try discriminate H.
    destruct (parse_uint [y1; y2; y3; y4] 0 9999) as [y|] eqn:Y; [|discriminate H]. destruct (parse_uint [m1; m2] 1 12) as [m|] eqn:M; [|discriminate H].
    destruct (parse_uint [d1; d2] 1 (days_in y m)) as [d|] eqn:D; [|discriminate H]. destruct (parse_uint [h1; h2] 0 23) as [hh|] eqn:Hh; [|discriminate H].
    destruct (parse_uint [i1; i2] 0 59) as [mm|] eqn:I; [|discriminate H]. destruct (parse_uint [s1; s2] 0 59) as [ss|] eqn:S; [|discriminate H].
    destruct (parse_nano r) as [ns z] eqn:N. destruct (parse_zone z) as [off|] eqn:Z; [|discriminate H]. injection H as <-.
    apply offset_iff in Z. apply (subsecond_iff r ns z off (offset_lax _ _ Z)) in N as (f & -> & N).
    apply (parse_uint_iff 4) in Y as [Y By]; [|reflexivity|lia|lia|reflexivity].
    apply parse_two in M as [M Bm]; [|lia|lia]. destruct (month_facts y m Bm) as [Md _]. rewrite Md in D. pose proof (month_len_pos y m) as Ml.
    apply parse_two in D as [D Bd]; [|lia|lia]. apply parse_two in Hh as [Hh Bh]; [|lia|lia]. apply parse_two in I as [I Bi]; [|lia|lia]. apply parse_two in S as [S Bs]; [|lia|lia].
    exists y, m, d, hh, mm, ss, f, ns, z, off. rewrite <- Y, <- M, <- D, <- Hh, <- I, <- S.
    assert (Vd : valid_date y m d) by (split; assumption). split; [reflexivity|]. repeat (split; [assumption|]).
    rewrite (make_date_number y m d hh mm ss ns Vd). unfold minute, second. lia.
  - intros (y & m & d & hh & mm & ss & f & ns & z & off & -> & By & Vd & Bh & Bi & Bs & N & Z & ->).
    pose proof Vd as [Bm Bd]. pose proof (month_len_pos y m) as Ml. destruct (month_facts y m Bm) as [Md _].
    destruct (dec_pad_facts 4 (Z.to_N y)) as (Ly & _); [lia|change (10 ^ N.of_nat 4)%N with 10000%N; lia|].
    pose proof (eq_refl (dec_pad 4 (Z.to_N y))) as Y. destruct (dec_pad 4 (Z.to_N y)) as [|y1 [|y2 [|y3 [|y4 [|? ?]]]]] eqn:Y' in |- *; rewrite Y' in Ly; try discriminate Ly. clear Y Ly.
    destruct (two_shape m) as (m1 & m2 & M); [lia|]. destruct (two_shape d) as (d1 & d2 & D); [lia|]. destruct (two_shape hh) as (h1 & h2 & Hh); [lia|].
    destruct (two_shape mm) as (i1 & i2 & I); [lia|]. destruct (two_shape ss) as (s1 & s2 & S); [lia|]. rewrite M, D, Hh, I, S.
    change ([y1; y2; y3; y4] ++ str "-" ++ [m1; m2] ++ str "-" ++ [d1; d2] ++ str "T" ++ [h1; h2] ++ str ":" ++ [i1; i2] ++ str ":" ++ [s1; s2] ++ f ++ z)
      with (y1 :: y2 :: y3 :: y4 :: x2d :: m1 :: m2 :: x2d :: d1 :: d2 :: x54 :: h1 :: h2 :: x3a :: i1 :: i2 :: x3a :: s1 :: s2 :: f ++ z).
    cbn [parse_rfc3339].
    rewrite (proj2 (parse_uint_iff 4 [y1; y2; y3; y4] 0 9999 y eq_refl ltac:(lia) ltac:(lia) eq_refl) (conj (eq_sym Y') By)).
    rewrite (proj2 (parse_two m1 m2 1 12 m ltac:(lia) ltac:(lia)) (conj (eq_sym M) Bm)), Md.
    rewrite (proj2 (parse_two d1 d2 1 (month_len y m) d ltac:(lia) ltac:(lia)) (conj (eq_sym D) Bd)).
    rewrite (proj2 (parse_two h1 h2 0 23 hh ltac:(lia) ltac:(lia)) (conj (eq_sym Hh) Bh)).
    rewrite (proj2 (parse_two i1 i2 0 59 mm ltac:(lia) ltac:(lia)) (conj (eq_sym I) Bi)).
    rewrite (proj2 (parse_two s1 s2 0 59 ss ltac:(lia) ltac:(lia)) (conj (eq_sym S) Bs)).
    rewrite (proj2 (subsecond_iff (f ++ z) ns z off (offset_lax _ _ Z))) by (exists f; split; [reflexivity|exact N]).
    apply offset_iff in Z. rewrite Z, (make_date_number y m d hh mm ss ns Vd). unfold minute, second. f_equal. lia.
Qed.

(** ** The times of time.Parse *)
Lemma dv_digit a : digit_char a = true -> 0 <= Z.of_N (bval a) - 48 <= 9.
Proof. unfold digit_char. lia. Qed.
Lemma uint_two a b : parse_uint [a; b] 0 99 = if digit_char a then if digit_char b then Some ((Z.of_N (bval a) - 48) * 10 + (Z.of_N (bval b) - 48)) else None else None.
Proof.
  unfold parse_uint. cbn [uint_go]. destruct (digit_char a) eqn:A; [|reflexivity]. destruct (digit_char b) eqn:B; [|reflexivity].
  apply dv_digit in A, B. rewrite Z.mul_0_l, Z.add_0_l. destruct (Z.ltb_spec ((Z.of_N (bval a) - 48) * 10 + (Z.of_N (bval b) - 48)) 0); [lia|].
  destruct (Z.ltb_spec 99 ((Z.of_N (bval a) - 48) * 10 + (Z.of_N (bval b) - 48))); [lia|]. reflexivity.
Qed.
Lemma getnum_two s x r : getnum true s = Some (x, r) <-> s = two x ++ r /\ 0 <= x <= 99.
Proof.
  split.
  - destruct s as [|a [|b s]]; cbn [getnum]; [discriminate|destruct (digit_char a); discriminate|]. pose proof (uint_two a b) as U.
    destruct (digit_char a); [|discriminate]. destruct (digit_char b); [|discriminate]. intros H. assert (E := f_equal (option_map fst) H). assert (E' := f_equal (option_map snd) H). cbn [option_map fst snd] in E, E'. apply (f_equal (fun o => match o with Some v => v | None => r end)) in E'. subst s. rewrite E in U.
    apply parse_two in U as [U B]; [|lia|lia]. rewrite <- U. split; [reflexivity|exact B].
  - intros [-> B]. destruct (two_shape x B) as (a & b & E). pose proof (proj2 (parse_two a b 0 99 x ltac:(lia) ltac:(lia)) (conj (eq_sym E) B)) as U.
    rewrite uint_two in U. rewrite E. cbn [app getnum]. destruct (digit_char a); [|discriminate]. destruct (digit_char b); [|discriminate]. exact (f_equal (option_map (fun v => (v, r))) U).
Qed.
Lemma one_shape x : 0 <= x <= 9 -> exists a, dec_pad 1 (Z.to_N x) = [a] /\ digit_char a = true /\ Z.of_N (bval a) - 48 = x.
Proof.
  intros H. assert (K : In x [0; 1; 2; 3; 4; 5; 6; 7; 8; 9]) by (cbn; lia). cbn in K.
  repeat destruct K as [<-|K]; try (eexists; split; [vm_compute; reflexivity|]; split; reflexivity). destruct K.
Qed.
Lemma one_digit a : digit_char a = true -> [a] = dec_pad 1 (Z.to_N (Z.of_N (bval a) - 48)).
Proof.
  intros D. destruct (one_shape _ (dv_digit a D)) as (b & E & _ & V). rewrite E. f_equal. apply bval_inj. lia.
Qed.
Lemma skip_iff c s r : skip c s = Some r <-> s = c :: r.
Proof.
  destruct s as [|x s]; cbn [skip]; [split; discriminate|]. destruct (Byte.eqb x c) eqn:E.
  - apply byte_eqb_eq in E as ->. split; intros [= ->]; reflexivity.
  - apply byte_eqb_neq in E. split; [discriminate|congruence].
Qed.
Lemma field_two lo hi c s x r : 0 <= lo -> hi <= 99 -> (field true lo hi c s = Some (x, r) <-> s = two x ++ c :: r /\ lo <= x <= hi).
Proof.
  intros Lo Hi. unfold field. split.
  - destruct (getnum true s) as [[y t]|] eqn:G; [|discriminate]. destruct ((y <? lo) || (hi <? y)) eqn:B; [discriminate|].
    destruct (skip c t) as [u|] eqn:S; [|discriminate]. cbn [option_map]. intros [= <- <-]. apply getnum_two in G as [-> _]. apply skip_iff in S as ->. split; [reflexivity|lia].
  - intros [-> B]. rewrite (proj2 (getnum_two (two x ++ c :: r) x (c :: r))) by (split; [reflexivity|lia]).
    destruct (Z.ltb_spec x lo), (Z.ltb_spec hi x); try lia. cbn [orb]. rewrite (proj2 (skip_iff c (c :: r) r) eq_refl). reflexivity.
Qed.
Lemma field_hour hi s x r : 9 <= hi <= 99 -> (field false 0 hi x3a s = Some (x, r) <->
  exists h, s = h ++ x3a :: r /\ (h = two x \/ x <= 9 /\ h = dec_pad 1 (Z.to_N x)) /\ 0 <= x <= hi).
Proof.
  intros Hi. unfold field. split.
  - destruct (getnum false s) as [[y t]|] eqn:G; [|discriminate]. destruct ((y <? 0) || (hi <? y)) eqn:B; [discriminate|].
    destruct (skip x3a t) as [u|] eqn:S; [|discriminate]. cbn [option_map]. intros [= <- <-]. apply skip_iff in S as ->.
    destruct s as [|a [|b s]]; cbn [getnum] in G; [discriminate|destruct (digit_char a); [injection G as _ G|]; discriminate|].
    destruct (digit_char a) eqn:A; [|discriminate]. destruct (digit_char b) eqn:D.
    + exists (two y). split; [|split; [left; reflexivity|lia]]. apply (getnum_two (a :: b :: s)). cbn [getnum]. rewrite A, D. exact G.
    + injection G as <- <- ->. exists [a]. split; [reflexivity|]. pose proof (dv_digit a A). split; [|lia]. right. split; [lia|apply one_digit, A].
  - intros (h & -> & [->|[Lx ->]] & B).
    + assert (G : getnum false (two x ++ x3a :: r) = Some (x, x3a :: r)).
      { assert (G : getnum true (two x ++ x3a :: r) = Some (x, x3a :: r)) by (apply getnum_two; split; [reflexivity|lia]).
        destruct (two_shape x) as (a & b & E); [lia|]. rewrite E in *. cbn [app getnum] in *. destruct (digit_char a); [|discriminate]. destruct (digit_char b); [exact G|discriminate]. }
      rewrite G. destruct (Z.ltb_spec x 0), (Z.ltb_spec hi x); try lia. reflexivity.
    + destruct (one_shape x) as (a & E & D & V); [lia|]. rewrite E. cbn [app getnum]. rewrite D. change (digit_char x3a) with false. cbv iota. rewrite V.
      destruct (Z.ltb_spec x 0), (Z.ltb_spec hi x); try lia. reflexivity.
Qed.
Lemma field_year_iff s y r : field_year x2d s = Some (y, r) <-> s = dec_pad 4 (Z.to_N y) ++ x2d :: r /\ 0 <= y <= 9999.
Proof.
  unfold field_year. split.
  - destruct (parse_uint (firstn 4 s) 0 9999) as [z|] eqn:P; [|discriminate]. destruct (Nat.ltb_spec (length s) 4) as [L|L]; [discriminate|].
    destruct (skip x2d (skipn 4 s)) as [u|] eqn:S; [|discriminate]. cbn [option_map]. intros [= <- <-]. apply skip_iff in S.
    apply (parse_uint_iff 4) in P as [P B]; [|rewrite firstn_length; lia|lia|lia|reflexivity]. split; [|exact B]. rewrite <- (firstn_skipn 4 s), S, P. reflexivity.
  - intros [-> B]. destruct (dec_pad_facts 4 (Z.to_N y)) as (L & _); [lia|change (10 ^ N.of_nat 4)%N with 10000%N; lia|].
    pose proof (proj2 (parse_uint_iff 4 (dec_pad 4 (Z.to_N y)) 0 9999 y L ltac:(lia) ltac:(lia) eq_refl) (conj eq_refl B)) as P.
    destruct (dec_pad 4 (Z.to_N y)) as [|y1 [|y2 [|y3 [|y4 [|? ?]]]]]; try discriminate L. cbn [app firstn skipn length]. rewrite P. reflexivity.
Qed.
Lemma lax_subsecond_iff r ns z off : lax_offset z off ->
  (lax_nano r = (ns, z) <-> exists f, r = f ++ z /\ lax_subsecond f ns).
Proof.
  intros Z. destruct (offset_head z off Z) as (cz & tz & Ez & Dz & Nz & Cz). split.
  - intros H. assert (K : (exists d t, r = x2c :: d :: t) \/ lax_nano r = parse_nano r).
    { destruct r as [|c [|d t]]; [right; reflexivity|destruct c; right; reflexivity|]. destruct c; try (right; reflexivity). left. eauto. }
    destruct K as [(d & t & ->)|K].
    + cbn [lax_nano] in H. destruct (digit_char d) eqn:D.
      * apply (subsecond_iff _ ns z off Z) in H as (f & E & S). destruct f as [|c f]; [cbn in E; rewrite Ez in E; injection E as E _; contradict Nz; symmetry; exact E|].
        injection E as <- E. exists (x2c :: f). split; [cbn; f_equal; exact E|]. right. exists f. split; [reflexivity|exact S].
      * injection H as _ H. rewrite Ez in H. injection H as H _. contradict Cz. symmetry. exact H.
    + rewrite K in H. apply (subsecond_iff _ ns z off Z) in H as (f & E & S). exists f. split; [exact E|left; exact S].
  - intros (f & -> & [S|(d & -> & S)]).
    + assert (K : lax_nano (f ++ z) = parse_nano (f ++ z)).
      { destruct S as [[-> _]|(d & -> & _)]; [|reflexivity]. rewrite Ez. cbn [app]. destruct cz; try reflexivity. contradiction Cz. reflexivity. }
      rewrite K. apply (subsecond_iff _ ns z off Z). eauto.
    + destruct S as [[K _]|(d' & [= <-] & N & D & V)]; [discriminate K|]. destruct d as [|c d]; [contradiction|]. cbn [app lax_nano].
      inversion D as [|? ? D1 D2]; subst. apply digit_iff in D1. rewrite D1. apply (subsecond_iff _ ns _ off Z). exists (x2e :: c :: d). split; [reflexivity|].
      right. exists (c :: d). auto.
Qed.
Lemma lax_iff raw t : parse_lax raw = Some t <-> lax_stamp raw t.
Proof.
  unfold parse_lax. split.
  - destruct (field_year x2d raw) as [[y s1]|] eqn:Y; [|discriminate]. destruct (field true 1 12 x2d s1) as [[m s2]|] eqn:M; [|discriminate].
    destruct (field true 0 99 x54 s2) as [[d s3]|] eqn:D; [|discriminate]. destruct (field false 0 23 x3a s3) as [[hh s4]|] eqn:H; [|discriminate].
    destruct (field true 0 59 x3a s4) as [[mm s5]|] eqn:I; [|discriminate]. destruct (getnum true s5) as [[ss s6]|] eqn:S; [|discriminate].
    destruct (Z.ltb_spec 59 ss) as [Bs|Bs]; [discriminate|]. destruct (lax_nano s6) as [ns z] eqn:N. destruct (zone_in 99 99 z) as [off|] eqn:Z; [|discriminate].
    destruct ((d <? 1) || (days_in y m <? d)) eqn:Bd; [discriminate|]. intros [= <-].
    apply field_year_iff in Y as [-> By]. apply field_two in M as [-> Bm]; [|lia|lia]. apply field_two in D as [-> Bd']; [|lia|lia].
    apply field_hour in H as (hour & -> & Hh & Bh); [|lia]. apply field_two in I as [-> Bi]; [|lia|lia]. apply getnum_two in S as [-> Bs'].
    apply lax_offset_iff in Z. apply (lax_subsecond_iff _ _ _ _ Z) in N as (f & -> & N). destruct (month_facts y m Bm) as [Md _]. rewrite Md in Bd.
    exists y, m, d, hour, hh, mm, ss, f, ns, z, off. assert (Vd : valid_date y m d) by (split; lia). split; [reflexivity|].
    repeat (split; [first [assumption|lia]|]). rewrite (make_date_number y m d hh mm ss ns Vd). unfold minute, second. lia.
  - intros (y & m & d & hour & hh & mm & ss & f & ns & z & off & -> & By & Vd & Hh & Bh & Bi & Bs & N & Z & ->).
    pose proof Vd as [Bm Bd]. pose proof (month_len_pos y m) as Ml. destruct (month_facts y m Bm) as [Md _].
    change (str "-") with [x2d]. change (str "T") with [x54]. change (str ":") with [x3a]. cbn [app].
    rewrite (proj2 (field_year_iff _ y (two m ++ x2d :: two d ++ x54 :: hour ++ x3a :: two mm ++ x3a :: two ss ++ f ++ z)) (conj eq_refl By)).
    rewrite (proj2 (field_two 1 12 x2d _ m (two d ++ x54 :: hour ++ x3a :: two mm ++ x3a :: two ss ++ f ++ z) ltac:(lia) ltac:(lia)) (conj eq_refl Bm)).
    rewrite (proj2 (field_two 0 99 x54 _ d (hour ++ x3a :: two mm ++ x3a :: two ss ++ f ++ z) ltac:(lia) ltac:(lia))) by (split; [reflexivity|lia]).
    rewrite (proj2 (field_hour 23 _ hh (two mm ++ x3a :: two ss ++ f ++ z) ltac:(lia))) by (exists hour; split; [reflexivity|split; assumption]).
    rewrite (proj2 (field_two 0 59 x3a _ mm (two ss ++ f ++ z) ltac:(lia) ltac:(lia)) (conj eq_refl Bi)).
    rewrite (proj2 (getnum_two _ ss (f ++ z))) by (split; [reflexivity|lia]). destruct (Z.ltb_spec 59 ss); [lia|].
    rewrite (proj2 (lax_subsecond_iff (f ++ z) ns z off Z)) by (exists f; split; [reflexivity|exact N]).
    rewrite (proj2 (lax_offset_iff z off) Z), Md. destruct (Z.ltb_spec d 1), (Z.ltb_spec (month_len y m) d); try lia. cbn [orb].
    f_equal. rewrite (make_date_number y m d hh mm ss ns Vd). unfold minute, second. lia.
Qed.
Lemma stamp_lax raw t : stamp raw t -> lax_stamp raw t.
Proof.
  intros (y & m & d & hh & mm & ss & f & ns & z & off & -> & By & Vd & Bh & Bi & Bs & N & Z & ->).
  exists y, m, d, (two hh), hh, mm, ss, f, ns, z, off. repeat (split; [first [assumption|reflexivity|left; reflexivity|left; assumption|apply offset_lax; assumption]|]). reflexivity.
Qed.
Lemma unmarshal_time_iff raw t : unmarshal_time raw = Some t <-> lax_stamp raw t.
Proof.
  unfold unmarshal_time. split.
  - destruct (parse_rfc3339 raw) as [u|] eqn:P; [|apply lax_iff]. intros [= <-]. apply stamp_lax, stamp_iff, P.
  - intros H. apply lax_iff in H. destruct (parse_rfc3339 raw) as [u|] eqn:P; [|exact H]. apply stamp_iff, stamp_lax, lax_iff in P. congruence.
Qed.
