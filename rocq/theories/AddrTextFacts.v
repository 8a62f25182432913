(** The text of addresses. *)
From Coq Require Import List NArith ZArith Bool Arith Lia.
From Coq Require Import ZifyBool ZifyNat ZifyN.
From Verif Require Import GoBase GoBaseFacts NetIP SpecConfig IPTextFacts SpecAddrText.
Import ListNotations.
Local Open Scope list_scope.

(** ** Groups *)
Lemma hex_digit_val n : (n < 16)%N -> hex_digit_value (hex_digit n) n /\ (bval (hex_digit n) < 65 \/ 70 < bval (hex_digit n))%N
  /\ (hex_digit n = x30 -> n = 0%N).
Proof.
  intros H. unfold hex_digit, hex_digit_value. destruct (n <? 10)%N eqn:E.
  - rewrite bval_byte_of, N.mod_small by lia. split; [left; lia|]. split; [lia|].
    intros Q. apply (f_equal bval) in Q. rewrite bval_byte_of, N.mod_small in Q by lia. change (bval x30) with 48%N in Q. lia.
  - rewrite bval_byte_of, N.mod_small by lia. split; [right; left; lia|]. split; [lia|].
    intros Q. apply (f_equal bval) in Q. rewrite bval_byte_of, N.mod_small in Q by lia. change (bval x30) with 48%N in Q. lia.
Qed.

Lemma snoc_value s b v d : hex_value s v -> hex_digit_value b d -> hex_value (s ++ [b]) (16 * v + d).
Proof. apply hv_snoc. Qed.

Lemma append_hex_text v : (v < 65536)%N -> group_text v (append_hex v).
Proof.
  intros H. unfold append_hex, group_text, hex_group.
  pose proof (hex_digit_val (v / 4096) ltac:(apply N.div_lt_upper_bound; lia)) as (D1 & L1 & Z1).
  pose proof (hex_digit_val (v / 256 mod 16) ltac:(apply N.mod_lt; lia)) as (D2 & L2 & Z2).
  pose proof (hex_digit_val (v / 16 mod 16) ltac:(apply N.mod_lt; lia)) as (D3 & L3 & Z3).
  pose proof (hex_digit_val (v mod 16) ltac:(apply N.mod_lt; lia)) as (D4 & L4 & Z4).
  assert (E1 : (v = 4096 * (v / 4096) + 256 * (v / 256 mod 16) + 16 * (v / 16 mod 16) + v mod 16)%N).
  { clear. Z.to_euclidean_division_equations. lia. }
  set (a := (v / 4096)%N) in *. set (b := (v / 256 mod 16)%N) in *. set (c := (v / 16 mod 16)%N) in *. set (d := (v mod 16)%N) in *.
  assert (Ba : (a < 16)%N) by (apply N.div_lt_upper_bound; lia).
  assert (Bb : (b < 16)%N) by (apply N.mod_lt; lia). assert (Bc : (c < 16)%N) by (apply N.mod_lt; lia). assert (Bd : (d < 16)%N) by (apply N.mod_lt; lia).
  clearbody a b c d.
  pose proof (snoc_value _ _ _ _ hv_nil D1) as V1. pose proof (snoc_value _ _ _ _ V1 D2) as V2.
  pose proof (snoc_value _ _ _ _ V2 D3) as V3. pose proof (snoc_value _ _ _ _ V3 D4) as V4.
  pose proof (snoc_value _ _ _ _ hv_nil D2) as U2. pose proof (snoc_value _ _ _ _ U2 D3) as U3. pose proof (snoc_value _ _ _ _ U3 D4) as U4.
  pose proof (snoc_value _ _ _ _ hv_nil D3) as T3. pose proof (snoc_value _ _ _ _ T3 D4) as T4.
  pose proof (snoc_value _ _ _ _ hv_nil D4) as S4.
  cbn [app] in *.
  destruct (4096 <=? v)%N eqn:C1; [|destruct (256 <=? v)%N eqn:C2; [|destruct (16 <=? v)%N eqn:C3]].
  - replace (256 <=? v)%N with true by lia. replace (16 <=? v)%N with true by lia. cbn [app length].
    split; [split; [discriminate|split; [|exact H]]|split; [lia|split; [repeat (apply Forall_cons; [assumption|]); apply Forall_nil|]]].
    + replace v with (16 * (16 * (16 * (16 * 0 + a) + b) + c) + d)%N by lia. exact V4.
    + cbn [hd]. intros Q. specialize (Z1 Q). lia.
  - replace (16 <=? v)%N with true by lia. cbn [app length].
    split; [split; [discriminate|split; [|exact H]]|split; [lia|split; [repeat (apply Forall_cons; [assumption|]); apply Forall_nil|]]].
    + replace v with (16 * (16 * (16 * 0 + b) + c) + d)%N by lia. exact U4.
    + cbn [hd]. intros Q. specialize (Z2 Q). lia.
  - cbn [app length]. split; [split; [discriminate|split; [|exact H]]|split; [lia|split; [repeat (apply Forall_cons; [assumption|]); apply Forall_nil|]]].
    + replace v with (16 * (16 * 0 + c) + d)%N by lia. exact T4.
    + cbn [hd]. intros Q. specialize (Z3 Q). lia.
  - cbn [app length]. split; [split; [discriminate|split; [|exact H]]|split; [lia|split; [repeat (apply Forall_cons; [assumption|]); apply Forall_nil|]]].
    + replace v with (16 * 0 + d)%N by lia. exact S4.
    + cbn [hd]. intros ->. reflexivity.
Qed.

Lemma colons_text vs : Forall (fun v => (v < 65536)%N) vs -> groups_text vs (colons (map append_hex vs)).
Proof.
  induction 1 as [|v vs Hv H IH]; [constructor|]. destruct vs as [|v' vs]; cbn [map colons] in *.
  - constructor. apply append_hex_text, Hv.
  - constructor; [apply append_hex_text, Hv|exact IH].
Qed.

(** ** The ellipsis *)
Fixpoint fzeros (g : list bool) : nat := match g with x :: r => if x then S (fzeros r) else 0 | [] => 0 end.
Fixpoint flongest (i : nat) (g : list bool) (best : nat * nat) : nat * nat :=
  match g with
  | [] => best
  | _ :: r => let l := fzeros g in flongest (S i) r (if Nat.leb 2 l && Nat.ltb (snd best) l then (i, l) else best)
  end.
Definition flag (v : N) : bool := (v =? 0)%N.
Lemma zeros_flags g : zeros g = fzeros (map flag g).
Proof. induction g as [|x g IH]; [reflexivity|]. cbn [zeros map fzeros]. unfold flag at 1. rewrite IH. reflexivity. Qed.
Lemma longest_flags g : forall i b, longest_run i g b = flongest i (map flag g) b.
Proof.
  induction g as [|x g IH]; intros i b; [reflexivity|]. cbn [longest_run map flongest].
  rewrite (zeros_flags (x :: g)). cbn [map]. apply IH.
Qed.

Fixpoint all_flags (n : nat) : list (list bool) :=
  match n with
  | O => [[]]
  | S n => map (cons true) (all_flags n) ++ map (cons false) (all_flags n)
  end.
Lemma in_all_flags n : forall f, length f = n -> In f (all_flags n).
Proof.
  induction n as [|n IH]; intros f H.
  - destruct f; [left; reflexivity|discriminate H].
  - destruct f as [|b f]; [discriminate H|]. injection H as H. cbn [all_flags]. apply in_app_iff.
    destruct b; [left|right]; apply in_map, IH, H.
Qed.
(** Every run (i', k') is at most as good as (i, k). *)
Definition run (f : list bool) (i k : nat) : bool := Nat.leb (i + k) (length f) && forallb id (firstn k (skipn i f)).
Definition best (f : list bool) (i k : nat) : bool :=
  forallb (fun i' => forallb (fun k' => negb (run f i' k') || (Nat.leb k' k && (negb (Nat.eqb k' k) || Nat.leb i i'))) (seq 0 9)) (seq 0 9).
Definition flags_ok (f : list bool) : bool :=
  match flongest 0 f (0, 0) with
  | (_, O) => forallb (fun i => negb (run f i 2)) (seq 0 8)
  | (i, k) => run f i k && Nat.leb 2 k && best f i k
  end.
Lemma all_flags_ok : forallb flags_ok (all_flags 8) = true.
Proof. vm_compute. reflexivity. Qed.

Lemma run_of vs a k b : vs = a ++ repeat 0%N k ++ b -> run (map flag vs) (length a) k = true.
Proof.
  intros ->. unfold run. rewrite map_length, !app_length, repeat_length, !map_app. apply andb_true_iff. split; [lia|].
  rewrite skipn_app, skipn_all2 by (rewrite map_length; lia). rewrite map_length, Nat.sub_diag. cbn [app skipn].
  rewrite firstn_app, firstn_all2 by (rewrite map_length, repeat_length; lia).
  rewrite map_length, repeat_length, Nat.sub_diag. cbn [firstn]. rewrite app_nil_r.
  induction k as [|k IH]; [reflexivity|]. cbn [repeat map forallb]. rewrite IH. reflexivity.
Qed.
Lemma flags_zeros l : forallb id (map flag l) = true -> l = repeat 0%N (length l).
Proof.
  induction l as [|x l IH]; [reflexivity|]. cbn [map forallb]. intros H. apply andb_true_iff in H. destruct H as [H1 H2].
  unfold id, flag in H1. apply N.eqb_eq in H1. cbn [length repeat]. rewrite <- IH by exact H2. subst x. reflexivity.
Qed.
Lemma run_split vs i k : run (map flag vs) i k = true ->
  vs = firstn i vs ++ repeat 0%N k ++ skipn (i + k) vs /\ length (firstn i vs) = i.
Proof.
  unfold run. rewrite map_length. intros H. apply andb_true_iff in H. destruct H as [H1 H2]. apply Nat.leb_le in H1.
  split; [|rewrite firstn_length; lia].
  rewrite <- (firstn_skipn i vs) at 1. f_equal.
  rewrite <- (firstn_skipn k (skipn i vs)) at 1.
  rewrite skipn_map, firstn_map in H2. apply flags_zeros in H2.
  rewrite firstn_length, skipn_length, Nat.min_l in H2 by lia. rewrite H2 at 1. f_equal.
  clear. revert vs. induction i as [|i IH]; intros vs; [reflexivity|]. destruct vs; [destruct k; reflexivity|]. apply IH.
Qed.

Lemma string6_canonical x vs : groups16 x = vs -> length vs = 8 -> Forall (fun v => (v < 65536)%N) vs -> canonical vs (string6 x).
Proof.
  intros E L B. unfold string6. rewrite E, longest_flags.
  pose proof all_flags_ok as A. rewrite forallb_forall in A.
  specialize (A (map flag vs) (in_all_flags 8 _ ltac:(rewrite map_length; exact L))). unfold flags_ok in A.
  destruct (flongest 0 (map flag vs) (0, 0)) as [i [|k]].
  - left. split; [|apply colons_text, B]. intros a b Q.
    pose proof (run_of vs a 2 b Q) as R. rewrite forallb_forall in A.
    assert (La : length a < 8) by (apply (f_equal (@length N)) in Q; rewrite app_length in Q; cbn [length] in Q; lia).
    specialize (A (length a) ltac:(apply in_seq; lia)). rewrite R in A. discriminate A.
  - right. apply andb_true_iff in A. destruct A as [A A3]. apply andb_true_iff in A. destruct A as [A1 A2]. apply Nat.leb_le in A2.
    destruct (run_split vs i (S k) A1) as (S1 & S2).
    exists (firstn i vs), (S k), (skipn (i + S k) vs). eexists. eexists.
    split; [exact S1|]. split; [exact A2|]. split; [|split; [|split; [|reflexivity]]].
    + intros a' k' b' Q. pose proof (run_of vs a' k' b' Q) as R. unfold best in A3. rewrite forallb_forall in A3.
      assert (Lq : length a' + k' <= 8).
      { apply (f_equal (@length N)) in Q. rewrite !app_length, repeat_length in Q. lia. }
      specialize (A3 (length a') ltac:(apply in_seq; lia)). rewrite forallb_forall in A3.
      specialize (A3 k' ltac:(apply in_seq; lia)). rewrite R in A3. cbn [negb orb] in A3.
      apply andb_true_iff in A3. destruct A3 as [A3 A4]. apply Nat.leb_le in A3. split; [exact A3|].
      intros ->. rewrite S2. rewrite Nat.eqb_refl in A4. cbn [negb orb] in A4. apply Nat.leb_le, A4.
    + rewrite firstn_map. apply colons_text. apply Forall_forall. intros v Hv. rewrite Forall_forall in B. apply B.
      rewrite <- (firstn_skipn i vs). apply in_app_iff. left. exact Hv.
    + rewrite skipn_map. apply colons_text. apply Forall_forall. intros v Hv. rewrite Forall_forall in B. apply B.
      rewrite <- (firstn_skipn (i + S k) vs). apply in_app_iff. right. exact Hv.
Qed.

(** ** Reading the text again *)
Lemma groups_text_groups v4 vs t : groups_text vs t -> vs <> [] -> groups v4 t (bytes_of_groups vs) (length vs).
Proof.
  induction 1 as [|v t (G & _)|v t v' vs u (G & _) H IH]; intros N; [contradiction N; reflexivity| |].
  - apply gr_one, G.
  - change (bytes_of_groups (v :: v' :: vs)) with (byte_of (v / 256) :: byte_of v :: bytes_of_groups (v' :: vs)).
    apply gr_cons; [exact G|]. apply IH. discriminate.
Qed.
Lemma groups_text_opt v4 vs t : groups_text vs t -> opt_groups v4 t (bytes_of_groups vs) (length vs).
Proof.
  intros H. destruct vs as [|v vs].
  - inversion H. left. repeat split.
  - right. apply groups_text_groups; [exact H|discriminate].
Qed.
Lemma bytes_of_app a b : bytes_of_groups (a ++ b) = bytes_of_groups a ++ bytes_of_groups b.
Proof. apply flat_map_app. Qed.
Lemma bytes_of_zeros k : bytes_of_groups (repeat 0%N k) = repeat x00 (2 * k).
Proof.
  induction k as [|k IH]; [reflexivity|]. replace (2 * S k) with (S (S (2 * k))) by lia. cbn [repeat].
  change (bytes_of_groups (0%N :: repeat 0%N k)) with (x00 :: x00 :: bytes_of_groups (repeat 0%N k)). rewrite IH. reflexivity.
Qed.
Lemma canonical_text vs t : length vs = 8 -> canonical vs t -> ipv6_text t (bytes_of_groups vs).
Proof.
  intros L [[_ H]|(a & k & b & ta & tb & E & K & _ & Ha & Hb & ->)].
  - apply v6_full. rewrite <- L. apply groups_text_groups; [exact H|]. intros ->. discriminate L.
  - rewrite E, !bytes_of_app, bytes_of_zeros.
    assert (L' : length a + k + length b = 8) by (rewrite E, !app_length, repeat_length in L; lia).
    replace (2 * k) with (16 - 2 * (length a + length b)) by lia.
    apply v6_compressed; [apply groups_text_opt, Ha|apply groups_text_opt, Hb|lia].
Qed.

Lemma byte_of_join a b : byte_of ((256 * bval a + bval b) / 256) = a /\ byte_of (256 * bval a + bval b) = b.
Proof.
  pose proof (bval_lt a). pose proof (bval_lt b). split.
  - apply bval_inj. rewrite bval_byte_of. rewrite N.mul_comm, N.div_add_l by lia. rewrite N.div_small by lia. rewrite N.add_0_r. apply N.mod_small. lia.
  - apply bval_inj. rewrite bval_byte_of. rewrite N.add_comm, N.mul_comm, N.mod_add by lia. apply N.mod_small. lia.
Qed.
Lemma groups16_bytes n : forall x, length x = 2 * n ->
  length (groups16 x) = n /\ Forall (fun v => (v < 65536)%N) (groups16 x) /\ bytes_of_groups (groups16 x) = x.
Proof.
  induction n as [|n IH]; intros x H.
  - destruct x; [repeat split; constructor|discriminate H].
  - destruct x as [|a [|b x]]; try (cbn [length] in H; lia). cbn [groups16]. destruct (IH x) as (I1 & I2 & I3); [cbn [length] in H; lia|].
    split; [cbn [length]; lia|]. split; [constructor; [pose proof (bval_lt a); pose proof (bval_lt b); lia|exact I2]|].
    change (bytes_of_groups ((256 * bval a + bval b)%N :: groups16 x)) with
      (byte_of ((256 * bval a + bval b) / 256) :: byte_of (256 * bval a + bval b) :: bytes_of_groups (groups16 x)).
    destruct (byte_of_join a b) as [-> ->]. rewrite I3. reflexivity.
Qed.

Lemma ip_string16 x : length x = 16 -> ip_string x = match to4 x with Some v4 => string4 v4 | None => string6 x end.
Proof. intros H. unfold ip_string. destruct x as [|b x]; [discriminate H|]. rewrite H. reflexivity. Qed.

(** The first four bytes of a list as numbers *)
Lemma four_of x : length x = 4 -> exists a b c d, (a < 256 /\ b < 256 /\ c < 256 /\ d < 256)%N /\ x = map byte_of [a; b; c; d] /\ string4 x = dotted a b c d.
Proof.
  intros H. destruct x as [|a [|b [|c [|d [|]]]]]; try discriminate H.
  exists (bval a), (bval b), (bval c), (bval d). split; [repeat split; apply bval_lt|]. split; [|reflexivity].
  cbn [map]. rewrite !byte_of_bval. reflexivity.
Qed.

Lemma all_zero_repeat l : all_zero l = true <-> l = repeat x00 (length l).
Proof.
  unfold all_zero. induction l as [|b l IH]; [split; reflexivity|]. cbn [forallb length repeat]. rewrite andb_true_iff, IH.
  split.
  - intros [E ->]. apply byte_eqb_eq in E. rewrite E, repeat_length. reflexivity.
  - intros E. injection E as -> E. split; [reflexivity|exact E].
Qed.
Lemma to4_16 x v4 : length x = 16 -> to4 x = Some v4 -> x = repeat x00 10 ++ [xff; xff] ++ v4 /\ length v4 = 4.
Proof.
  intros H E. unfold to4 in E. rewrite H in E. cbn [Nat.eqb andb] in E.
  destruct (all_zero (firstn 10 x)) eqn:Z; cbn [andb] in E; [|discriminate E].
  destruct (bget 10 x =? 255)%N eqn:E1; cbn [andb] in E; [|discriminate E].
  destruct (bget 11 x =? 255)%N eqn:E2; [|discriminate E]. assert (Ev : v4 = skipn 12 x) by congruence. subst v4. clear E.
  split; [|rewrite skipn_length; lia]. apply all_zero_repeat in Z. rewrite firstn_length, H in Z. change (Nat.min 10 16) with 10 in Z.
  rewrite <- (firstn_skipn 10 x) at 1. rewrite Z. f_equal.
  do 12 (destruct x as [|? x]; [discriminate H|]). cbn [skipn app]. unfold bget in E1, E2. cbn [nth] in E1, E2.
  apply N.eqb_eq in E1, E2. do 2 f_equal; [|f_equal]; apply bval_inj; assumption.
Qed.
Lemma to4_mapped_form v4 : length v4 = 4 -> to4 (repeat x00 10 ++ [xff; xff] ++ v4) = Some v4.
Proof. intros H. destruct v4 as [|a [|b [|c [|d [|]]]]]; try discriminate H. reflexivity. Qed.

(** The text of the address in a socket, Inetdiag.ip and IP.String. *)
From Verif Require Import Inetdiag.
Lemma ip_first_four x : length x = 16 -> is_ipv6 x = false -> x = firstn 4 x ++ repeat x00 12.
Proof.
  intros H E. unfold is_ipv6 in E. apply negb_false_iff in E. apply all_zero_repeat in E. rewrite skipn_length, H in E.
  rewrite <- (firstn_skipn 4 x) at 1. rewrite E. reflexivity.
Qed.
Lemma first_four_not_v6 p : length p = 4 -> is_ipv6 (p ++ repeat x00 12) = false.
Proof. intros H. destruct p as [|a [|b [|c [|d [|]]]]]; try discriminate H. reflexivity. Qed.

Lemma ip_text x : length x = 16 -> address_text x (ip_string (ip x)).
Proof.
  intros H. unfold ip. destruct (is_ipv6 x) eqn:V.
  - rewrite (ip_string16 x H). destruct (to4 x) as [v4|] eqn:T.
    + left. destruct (to4_16 x v4 H T) as [E L]. destruct (four_of v4 L) as (a & b & c & d & B & E4 & S).
      exists a, b, c, d. split; [|exact S]. right. split; [rewrite <- E4; exact E|exact B].
    + right. split.
      * intros a b c d [[E B]|[E B]].
        -- rewrite E, first_four_not_v6 in V by reflexivity. discriminate V.
        -- rewrite E, to4_mapped_form in T by reflexivity. discriminate T.
      * destruct (groups16_bytes 8 x H) as (G1 & G2 & G3). exists (groups16 x).
        split; [exact G1|]. split; [exact G2|]. split; [symmetry; exact G3|]. apply string6_canonical; [reflexivity|exact G1|exact G2].
  - left. pose proof (ip_first_four x H V) as E.
    assert (L : length (firstn 4 x) = 4) by (rewrite firstn_length; lia).
    destruct (four_of _ L) as (a & b & c & d & B & E4 & S). exists a, b, c, d. split.
    + left. split; [rewrite <- E4; exact E|exact B].
    + unfold ip_string. destruct (firstn 4 x) as [|b0 l0] eqn:F; [discriminate L|]. rewrite <- F in *. rewrite L. cbn [Nat.eqb negb andb].
      unfold to4. rewrite L. exact S.
Qed.

(** net.ParseIP gives the address back. *)
Lemma parse_text x t : length x = 16 -> address_text x t ->
  (forall a b c d, four_bytes x a b c d -> parse_ip t = Some (repeat x00 10 ++ [xff; xff] ++ map byte_of [a; b; c; d]))
  /\ ((forall a b c d, ~ four_bytes x a b c d) -> parse_ip t = Some x).
Proof.
  intros H [(a & b & c & d & F & ->)|(N & vs & L & B & E & C)].
  - assert (P : (a < 256 /\ b < 256 /\ c < 256 /\ d < 256)%N) by (destruct F as [[_ P]|[_ P]]; exact P).
    split; [|intros N; destruct (N a b c d F)].
    intros a' b' c' d' F'. destruct P as (P1 & P2 & P3 & P4). rewrite parse_ip_dotted by assumption.
    assert (Q : map byte_of [a'; b'; c'; d'] = map byte_of [a; b; c; d]).
    { destruct F as [[F _]|[F _]], F' as [[F' _]|[F' _]]; rewrite F in F'; injection F'; intros; cbn [map]; try congruence. }
    rewrite Q. reflexivity.
  - split.
    + intros a b c d F. destruct (N a b c d F).
    + intros _. destruct (parse_ip_v6 t x) as [P _]; [|exact P]. rewrite E. apply canonical_text; assumption.
Qed.

Lemma four_unique x a b c d a' b' c' d' : four_bytes x a b c d -> four_bytes x a' b' c' d' -> (a, b, c, d) = (a', b', c', d').
Proof.
  intros F F'.
  assert (Q : map byte_of [a'; b'; c'; d'] = map byte_of [a; b; c; d]).
  { destruct F as [[F _]|[F _]], F' as [[F' _]|[F' _]]; rewrite F in F'; injection F'; intros; cbn [map]; try congruence. }
  assert (P : (a < 256 /\ b < 256 /\ c < 256 /\ d < 256)%N) by (destruct F as [[_ P]|[_ P]]; exact P).
  assert (P' : (a' < 256 /\ b' < 256 /\ c' < 256 /\ d' < 256)%N) by (destruct F' as [[_ P']|[_ P']]; exact P').
  apply (f_equal (map bval)) in Q. cbn [map] in Q. rewrite !bval_byte_of, !N.mod_small in Q by lia.
  injection Q as -> -> -> ->. reflexivity.
Qed.
Lemma four_text x t a b c d : address_text x t -> four_bytes x a b c d -> t = dotted a b c d.
Proof.
  intros [(a' & b' & c' & d' & F & ->)|(N & _)] F'; [|destruct (N a b c d F')].
  pose proof (four_unique _ _ _ _ _ _ _ _ _ F F') as E. injection E as -> -> -> ->. reflexivity.
Qed.

(** The same text: the same address. *)
Lemma same_text x y t : length x = 16 -> length y = 16 -> address_text x t -> address_text y t ->
  x = y \/ exists a b c d, four_bytes x a b c d /\ four_bytes y a b c d.
Proof.
  intros Hx Hy Tx Ty. destruct (parse_text x t Hx Tx) as [Px Px']. destruct (parse_text y t Hy Ty) as [Py Py'].
  assert (D : forall z, address_text z t -> (exists a b c d, four_bytes z a b c d) \/ (forall a b c d, ~ four_bytes z a b c d)).
  { intros z [(a & b & c & d & F & _)|(N & _)]; [left; eauto 6|right; exact N]. }
  destruct (D x Tx) as [(a & b & c & d & F)|Nx], (D y Ty) as [(a' & b' & c' & d' & F')|Ny].
  - right. specialize (Px _ _ _ _ F). specialize (Py _ _ _ _ F'). rewrite Px in Py. injection Py; intros Q1 Q2 Q3 Q4.
    assert (P : (a < 256 /\ b < 256 /\ c < 256 /\ d < 256)%N) by (destruct F as [[_ P]|[_ P]]; exact P).
    assert (P' : (a' < 256 /\ b' < 256 /\ c' < 256 /\ d' < 256)%N) by (destruct F' as [[_ P']|[_ P']]; exact P').
    apply (f_equal bval) in Q1, Q2, Q3, Q4. rewrite !bval_byte_of, !N.mod_small in Q1, Q2, Q3, Q4 by lia. subst.
    exists a', b', c', d'. split; assumption.
  - specialize (Px _ _ _ _ F). rewrite (Py' Ny) in Px. injection Px as Px. exfalso. apply (Ny a b c d). right.
    split; [exact Px|]. destruct F as [[_ P]|[_ P]]; exact P.
  - specialize (Py _ _ _ _ F'). rewrite (Px' Nx) in Py. injection Py as Py. exfalso. apply (Nx a' b' c' d'). right.
    split; [exact Py|]. destruct F' as [[_ P]|[_ P]]; exact P.
  - left. rewrite (Px' Nx) in Py'. specialize (Py' Ny). congruence.
Qed.
