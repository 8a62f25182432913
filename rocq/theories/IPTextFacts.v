(** Proofs about net.ParseIP and AddDstIP. *)
From Coq Require Import Strings.String List NArith ZArith Bool Arith Lia ZifyN ZifyNat ZifyBool.
From Verif Require Import GoBase GoBaseFacts Layout Tcp NetIP Inetdiag Netlink SpecNetlink NetlinkFacts AddrFacts RecordFacts SpecConfig ConfigFacts.
Import ListNotations.
Local Open Scope list_scope.
Local Open Scope nat_scope.

(** ** Dotted IPv4 *)
Definition no_digit_head (r : bytes) : Prop := match r with [] => True | b :: _ => is_dig b = false end.

Lemma dtoi_go_digits l : forall n i r, Forall decimal_digit l -> (dval n l < big)%N -> no_digit_head r ->
  0 < i + length l -> dtoi_go n i (l ++ r) = Some (dval n l, i + length l, r).
Proof.
  induction l as [|b l IH]; intros n i r Hf Hv Hr Hi.
  - cbn [app length dval fold_left] in *. rewrite Nat.add_0_r in *.
    destruct r as [|c r]; cbn [dtoi_go].
    + destruct i; [lia|reflexivity].
    + cbn in Hr. rewrite Hr. destruct i; [lia|reflexivity].
  - inversion Hf as [|? ? Hb Hl]; subst. cbn [app dtoi_go]. apply is_dig_iff in Hb. rewrite Hb.
    cbn [dval fold_left] in *. replace (n * 10 + (bval b - 48))%N with (10 * n + (bval b - 48))%N by lia.
    pose proof (dval_mono l (10 * n + (bval b - 48))%N) as M. unfold dval in M.
    replace (big <=? 10 * n + (bval b - 48))%N with false by lia.
    rewrite IH; auto; cbn [length]; try lia. unfold dval. do 2 f_equal. f_equal. lia.
Qed.

Lemma dec_head n : (n < 256)%N -> Nat.ltb 1 (length (dec n)) && (bget 0 (dec n) =? 48)%N = false.
Proof.
  intros H. assert (forallb (fun k => negb (Nat.ltb 1 (length (dec k)) && (bget 0 (dec k) =? 48)%N)) (map N.of_nat (seq 0 256)) = true) as K
    by (vm_compute; reflexivity).
  rewrite forallb_forall in K. specialize (K n). rewrite negb_true_iff in K. apply K.
  apply in_map_iff. exists (N.to_nat n). split; [lia|]. apply in_seq. lia.
Qed.

Lemma dec_decimal n : Forall decimal_digit (dec n).
Proof. eapply Forall_impl; [|apply dec_digits]. intros b Hb. apply is_dig_iff. exact Hb. Qed.

Lemma v4_octet_dec n r : (n < 256)%N -> no_digit_head r -> v4_octet (dec n ++ r) = Some (byte_of n, r).
Proof.
  intros H Hr. unfold v4_octet, dtoi.
  assert (0 < length (dec n)) by (pose proof (dec_nonempty n); destruct (dec n); [congruence|cbn; lia]).
  rewrite dtoi_go_digits; [|apply dec_decimal| |exact Hr|lia].
  2:{ change (dval 0 (dec n)) with (vald (dec n)). rewrite vald_dec. unfold big. lia. }
  change (dval 0 (dec n)) with (vald (dec n)). rewrite vald_dec. cbn [plus].
  replace (255 <? n)%N with false by lia.
  replace (bget 0 (dec n ++ r)) with (bget 0 (dec n)).
  2:{ unfold bget. rewrite app_nth1 by lia. reflexivity. }
  rewrite dec_head by exact H. reflexivity.
Qed.

Lemma parse_ipv4_dotted a b c d : (a < 256)%N -> (b < 256)%N -> (c < 256)%N -> (d < 256)%N ->
  parse_ipv4 (dotted a b c d) = Some (IPv4 (byte_of a) (byte_of b) (byte_of c) (byte_of d)).
Proof.
  intros. unfold parse_ipv4, dotted. cbn [app].
  rewrite v4_octet_dec by (auto; reflexivity). cbn [dot]. change (bval x2e =? 46)%N with true. cbn iota.
  rewrite v4_octet_dec by (auto; reflexivity). cbn [dot]. change (bval x2e =? 46)%N with true. cbn iota.
  rewrite v4_octet_dec by (auto; reflexivity). cbn [dot]. change (bval x2e =? 46)%N with true. cbn iota.
  rewrite <- (app_nil_r (dec d)). rewrite v4_octet_dec by (auto; exact I). reflexivity.
Qed.

Lemma first_sep_digits l r : Forall decimal_digit l -> first_sep (l ++ r) = first_sep r.
Proof.
  induction 1 as [|b l Hb Hl IH]; [reflexivity|]. cbn [app first_sep]. unfold decimal_digit in Hb.
  replace ((bval b =? 46) || (bval b =? 58))%N with false by lia. exact IH.
Qed.

Lemma parse_ip_dotted a b c d : (a < 256)%N -> (b < 256)%N -> (c < 256)%N -> (d < 256)%N ->
  parse_ip (dotted a b c d) = Some (IPv4 (byte_of a) (byte_of b) (byte_of c) (byte_of d)).
Proof.
  intros. unfold parse_ip. rewrite parse_ipv4_dotted by assumption.
  unfold dotted. rewrite first_sep_digits by apply dec_decimal. reflexivity.
Qed.

(** ** IPv6 text *)
Lemma hexv_iff b d : hexv b = Some d <-> hex_digit_value b d.
Proof.
  unfold hexv, hex_digit_value.
  destruct ((48 <=? bval b) && (bval b <=? 57))%N eqn:E1; [|destruct ((97 <=? bval b) && (bval b <=? 102))%N eqn:E2;
    [|destruct ((65 <=? bval b) && (bval b <=? 70))%N eqn:E3]];
  split; intros H; try discriminate; try (injection H as <-; lia); try (f_equal; lia); lia.
Qed.

Definition no_hex_head (r : bytes) : Prop := match r with [] => True | b :: _ => hexv b = None end.

(** value of a hexadecimal string read left to right *)
Inductive hexl : N -> bytes -> N -> Prop :=
| hexl_nil n : hexl n [] n
| hexl_cons n b d l v : hexv b = Some d -> hexl (16 * n + d) l v -> hexl n (b :: l) v.
Lemma hexl_snoc n l v b d : hexl n l v -> hexv b = Some d -> hexl n (l ++ [b]) (16 * v + d).
Proof. induction 1; intros Hd; cbn; econstructor; eauto. constructor. Qed.
Lemma hex_value_hexl s v : hex_value s v -> hexl 0 s v.
Proof. induction 1; [constructor|]. apply hexl_snoc; auto. apply hexv_iff. assumption. Qed.

Lemma hexl_bound n l v : hexl n l v -> (v < (n + 1) * 16 ^ N.of_nat (length l))%N.
Proof.
  induction 1 as [|n b d l v Hd H IH]; cbn [length].
  - cbn. lia.
  - assert (d < 16)%N by (apply hexv_iff in Hd; unfold hex_digit_value in Hd; lia).
    rewrite Nat2N.inj_succ, N.pow_succ_r'. nia.
Qed.
Lemma hexl_mono n l v : hexl n l v -> (n <= v)%N.
Proof. induction 1; lia. Qed.

Lemma xtoi_go_hexl n l v : hexl n l v -> forall i r, (v < big)%N -> no_hex_head r -> 0 < i + length l ->
  xtoi_go n i (l ++ r) = Some (v, i + length l, r).
Proof.
  induction 1 as [n|n b d l v Hd H IH]; intros i r Hv Hr Hi; cbn [app length xtoi_go] in *.
  - rewrite Nat.add_0_r in *. destruct r as [|c r]; cbn [xtoi_go].
    + destruct i; [lia|reflexivity].
    + cbn in Hr. rewrite Hr. destruct i; [lia|reflexivity].
  - rewrite Hd. replace (n * 16 + d)%N with (16 * n + d)%N by lia.
    apply hexl_mono in H. replace (big <=? 16 * n + d)%N with false by lia.
    rewrite IH; auto; try lia. do 2 f_equal. f_equal. lia.
Qed.

Lemma hex_group_bound s v : hex_group s v -> (v < 65536)%N.
Proof. intros (_ & _ & H). exact H. Qed.
Lemma xtoi_group s v r : hex_group s v -> no_hex_head r -> xtoi (s ++ r) = Some (v, length s, r).
Proof.
  intros (Hl & Hv & Hb) Hr. unfold xtoi.
  rewrite (xtoi_go_hexl 0 s v); auto; [apply hex_value_hexl, Hv|unfold big; lia|destruct s; [congruence|cbn [length]; lia]].
Qed.
Lemma hex_group_head s v : hex_group s v -> exists b t, s = b :: t /\ hexv b <> None.
Proof.
  intros (Hl & Hv & _). apply hex_value_hexl in Hv. inversion Hv; subst; [congruence|].
  eexists _, _. split; [reflexivity|]. congruence.
Qed.
Lemma hexv_not_sep b : hexv b <> None -> (bval b =? 58)%N = false /\ (bval b =? 46)%N = false.
Proof.
  unfold hexv. destruct ((48 <=? bval b) && (bval b <=? 57))%N eqn:E1; [lia|].
  destruct ((97 <=? bval b) && (bval b <=? 102))%N eqn:E2; [lia|].
  destruct ((65 <=? bval b) && (bval b <=? 70))%N eqn:E3; [lia|]. congruence.
Qed.
Lemma decimal_hexl l : Forall decimal_digit l -> forall n, exists v, hexl n l v.
Proof.
  induction 1 as [|b l Hb Hl IH]; intros n; [eexists; constructor|].
  destruct (IH (16 * n + (bval b - 48))%N) as [v Hv]. exists v. econstructor; [|exact Hv].
  apply hexv_iff. left. unfold decimal_digit in Hb. split; [exact Hb|reflexivity].
Qed.
Lemma dec_short a : (a < 256)%N -> length (dec a) <= 3.
Proof.
  intros H. assert (forallb (fun k => Nat.leb (length (dec k)) 3) (map N.of_nat (seq 0 256)) = true) as K by (vm_compute; reflexivity).
  rewrite forallb_forall in K. specialize (K a). apply Nat.leb_le, K. apply in_map_iff. exists (N.to_nat a). split; [lia|]. apply in_seq. lia.
Qed.
Lemma dec_hex a r : (a < 256)%N -> no_hex_head r -> exists v, (v < 65536)%N /\ xtoi (dec a ++ r) = Some (v, length (dec a), r).
Proof.
  intros H Hr. destruct (decimal_hexl _ (dec_decimal a) 0%N) as [v Hv]. exists v.
  pose proof (hexl_bound _ _ _ Hv) as B. pose proof (dec_short a H) as L.
  assert (16 ^ N.of_nat (length (dec a)) <= 16 ^ 3)%N by (apply N.pow_le_mono_r; lia). change (16 ^ 3)%N with 4096%N in *.
  split; [lia|]. unfold xtoi. rewrite (xtoi_go_hexl _ _ _ Hv); [reflexivity|unfold big; lia|exact Hr|].
  pose proof (dec_nonempty a). destruct (dec a); [congruence|cbn [length]; lia].
Qed.
Lemma dec_head_hex a r : exists c u, dec a ++ r = c :: u /\ hexv c <> None.
Proof.
  pose proof (dec_nonempty a) as N. pose proof (dec_decimal a) as D. destruct (dec a) as [|c u]; [congruence|]. exists c, (u ++ r).
  split; [reflexivity|]. inversion D as [|? ? Hc _]; subst. intros K.
  assert (hexv c = Some (bval c - 48)%N) as E by (apply hexv_iff; left; split; [exact Hc|reflexivity]). congruence.
Qed.
Lemma groups_head v4 t b n : groups v4 t b n -> exists c u, t = c :: u /\ hexv c <> None.
Proof.
  intros [s v G|a1 a2 a3 a4 _ _|s v t' b' n' G _]; [exact (hex_group_head s v G)|apply dec_head_hex|].
  destruct (hex_group_head s v G) as (c & u & -> & Hc). exists c, (u ++ x3a :: t'). split; [reflexivity|exact Hc].
Qed.
Lemma groups_len v4 t b n : groups v4 t b n -> length b = 2 * n /\ 0 < n.
Proof. induction 1; cbn [length]; lia. Qed.

(** one turn of the loop on a group followed by nothing, by ":t" or by "::t" *)
Lemma v6_step_end n acc ell s v : hex_group s v ->
  v6_loop (S n) acc ell s = Some (acc ++ [byte_of (v / 256); byte_of v], ell, []).
Proof.
  intros G. pose proof (hex_group_bound s v G). cbn [v6_loop].
  rewrite <- (app_nil_r s). rewrite (xtoi_group s v [] G I).
  replace (65535 <? v)%N with false by lia. reflexivity.
Qed.
Lemma v6_step_colon n acc ell s v c u : hex_group s v -> hexv c <> None ->
  v6_loop (S n) acc ell (s ++ x3a :: c :: u) = v6_loop n (acc ++ [byte_of (v / 256); byte_of v]) ell (c :: u).
Proof.
  intros G Hc. pose proof (hex_group_bound s v G). cbn [v6_loop].
  rewrite (xtoi_group s v (x3a :: c :: u) G eq_refl). replace (65535 <? v)%N with false by lia.
  change (bval x3a =? 46)%N with false. change (bval x3a =? 58)%N with true. cbn iota. cbn [negb]. cbn iota.
  destruct (hexv_not_sep c Hc) as [-> _]. reflexivity.
Qed.
Lemma v6_step_dcolon n acc s v u : hex_group s v ->
  v6_loop (S n) acc None (s ++ x3a :: x3a :: u) =
  let acc' := acc ++ [byte_of (v / 256); byte_of v] in
  match u with [] => Some (acc', Some (length acc'), []) | _ :: _ => v6_loop n acc' (Some (length acc')) u end.
Proof.
  intros G. pose proof (hex_group_bound s v G). cbn [v6_loop].
  rewrite (xtoi_group s v (x3a :: x3a :: u) G eq_refl). replace (65535 <? v)%N with false by lia.
  reflexivity.
Qed.

Lemma v6_step_dotted n acc ell a b c d : (a < 256 /\ b < 256 /\ c < 256 /\ d < 256)%N -> length acc + 4 <= 16 ->
  (ell = None -> length acc + 4 = 16) ->
  v6_loop (S n) acc ell (dotted a b c d) = Some (acc ++ [byte_of a; byte_of b; byte_of c; byte_of d], ell, []).
Proof.
  intros (Ha & Hb & Hc & Hd) L E. cbn [v6_loop]. rewrite (parse_ipv4_dotted a b c d Ha Hb Hc Hd). unfold dotted. cbn [app].
  destruct (dec_hex a (x2e :: dec b ++ x2e :: dec c ++ x2e :: dec d) Ha eq_refl) as (v & Bv & ->).
  replace (65535 <? v)%N with false by lia. change (bval x2e =? 46)%N with true. cbv iota.
  replace (match ell with None => negb (Nat.eqb (length acc) 12) | Some _ => false end) with false.
  2:{ destruct ell; [reflexivity|]. specialize (E eq_refl). replace (length acc) with 12 by lia. reflexivity. }
  replace (16 <? length acc + 4) with false by lia. reflexivity.
Qed.
Lemma v6_loop_groups v4 t b k : groups v4 t b k -> forall n acc ell, k <= n ->
  (v4 = true -> length acc + 2 * k <= 16 /\ (ell = None -> length acc + 2 * k = 16)) ->
  v6_loop n acc ell t = Some (acc ++ b, ell, []).
Proof.
  induction 1 as [s v G|a1 a2 a3 a4 Hv B|s v t b k G Ht IH]; intros n acc ell Hn HL.
  - destruct n as [|n]; [lia|]. apply v6_step_end, G.
  - destruct n as [|n]; [lia|]. destruct (HL Hv) as [L1 L2]. apply v6_step_dotted; [exact B|lia|intros E; specialize (L2 E); lia].
  - destruct n as [|n]; [lia|]. destruct (groups_head v4 t b k Ht) as (c & u & E & Hc). rewrite E.
    rewrite (v6_step_colon n acc ell s v c u G Hc). rewrite <- E. rewrite IH; [rewrite <- app_assoc; reflexivity|lia|].
    intros Hv. destruct (HL Hv) as [L1 L2]. rewrite app_length. cbn [length]. split; [lia|]. intros En. specialize (L2 En). lia.
Qed.
Lemma v6_loop_groups_dcolon t b k : groups false t b k -> forall n acc u, k <= n ->
  v6_loop n acc None (t ++ x3a :: x3a :: u) =
  match u with [] => Some (acc ++ b, Some (length (acc ++ b)), [])
  | _ :: _ => v6_loop (n - k) (acc ++ b) (Some (length (acc ++ b))) u end.
Proof.
  induction 1 as [s v G|a1 a2 a3 a4 Hv B|s v t b k G Ht IH]; intros n acc u Hn.
  - destruct n as [|n]; [lia|]. rewrite (v6_step_dcolon n acc s v u G). cbn zeta. replace (S n - 1) with n by lia. reflexivity.
  - discriminate Hv.
  - destruct n as [|n]; [lia|]. destruct (groups_head false t b k Ht) as (c & w & E & Hc).
    rewrite <- app_assoc. cbn [app]. rewrite E. cbn [app]. rewrite (v6_step_colon n acc None s v c _ G Hc).
    change (c :: w ++ x3a :: x3a :: u) with ((c :: w) ++ x3a :: x3a :: u). rewrite <- E. rewrite IH by lia.
    rewrite <- !app_assoc. cbn [app]. replace (S n - S k) with (n - k) by lia. reflexivity.
Qed.

Lemma parse_ipv6_nolead s : (forall r, s <> x3a :: x3a :: r) -> parse_ipv6 s = v6_finish (v6_loop 8 [] None s).
Proof.
  intros H. unfold parse_ipv6. destruct s as [|b1 [|b2 r]]; try reflexivity.
  destruct ((bval b1 =? 58) && (bval b2 =? 58))%N eqn:E; [|reflexivity]. exfalso. apply (H r).
  f_equal; [apply bval_inj; change (bval x3a) with 58%N; lia|]. f_equal. apply bval_inj. change (bval x3a) with 58%N. lia.
Qed.

Lemma parse_ipv6_text t x : ipv6_text t x -> parse_ipv6 t = Some x /\ length x = 16.
Proof.
  intros [t' b G|t1 b1 n1 t2 b2 n2 G1 G2 Hn].
  - destruct (groups_len _ _ _ _ G) as [L _]. split; [|lia].
    rewrite parse_ipv6_nolead.
    + rewrite (v6_loop_groups _ _ _ _ G) by (cbn [length]; lia). cbn [app v6_finish].
      replace (length b <? 16) with false by lia. reflexivity.
    + intros r ->. destruct (groups_head _ _ _ _ G) as (c & u & E & K). injection E as <- <-. apply K. reflexivity.
  - assert (L2 : length b2 = 2 * n2).
    { destruct G2 as [(-> & -> & ->)|G2]; [reflexivity|]. apply groups_len in G2. lia. }
    assert (L1 : length b1 = 2 * n1).
    { destruct G1 as [(-> & -> & ->)|G1]; [reflexivity|]. apply groups_len in G1. lia. }
    split; [|rewrite !app_length, repeat_length; lia].
    destruct G1 as [(-> & -> & ->)|G1].
    + cbn [app]. unfold parse_ipv6. change ((bval x3a =? 58) && (bval x3a =? 58))%N with true. cbn iota.
      destruct G2 as [(-> & -> & ->)|G2].
      * reflexivity.
      * destruct (groups_head _ _ _ _ G2) as (c & u & E & Hc). rewrite E. rewrite <- E.
        rewrite (v6_loop_groups _ _ _ _ G2); [|lia|intros _; split; [rewrite ?app_length; cbn [length]; lia|discriminate]]. cbn [app v6_finish firstn skipn].
        replace (length b2 <? 16) with true by lia. rewrite L2. cbn [plus]. reflexivity.
    + rewrite parse_ipv6_nolead.
      2:{ intros r E. destruct (groups_head _ _ _ _ G1) as (c & u & E1 & K). rewrite E1 in E. injection E as -> _. apply K. reflexivity. }
      cbn [app]. rewrite (v6_loop_groups_dcolon _ _ _ G1) by lia. cbn [app].
      destruct G2 as [(-> & -> & ->)|G2].
      * cbn [v6_finish]. replace (length b1 <? 16) with true by lia.
        rewrite firstn_all, skipn_all. rewrite L1. do 4 f_equal. lia.
      * destruct (groups_head _ _ _ _ G2) as (c & u & E & Hc). rewrite E. rewrite <- E.
        rewrite (v6_loop_groups _ _ _ _ G2); [|lia|intros _; split; [rewrite ?app_length; cbn [length]; lia|discriminate]]. cbn [v6_finish].
        rewrite app_length. replace (length b1 + length b2 <? 16) with true by lia.
        rewrite firstn_app, firstn_all, Nat.sub_diag, firstn_O, app_nil_r.
        rewrite skipn_app, skipn_all, Nat.sub_diag, skipn_O. cbn [app]. do 4 f_equal. lia.
Qed.

Lemma first_sep_hex s v r : hex_group s v -> first_sep (s ++ x3a :: r) = Some 58%N.
Proof.
  intros (_ & Hv & _). apply hex_value_hexl in Hv. revert Hv. generalize 0%N.
  induction s as [|b s IH]; intros n Hv; [reflexivity|]. inversion Hv; subst. cbn [app first_sep].
  destruct (hexv_not_sep b ltac:(congruence)) as [-> ->]. cbn [orb]. eapply IH. eassumption.
Qed.
Lemma groups_sep t b n r : groups false t b n -> first_sep (t ++ x3a :: r) = Some 58%N.
Proof.
  intros G. inversion G as [s v G'|? ? ? ? Hv _|s v t' b' n' G' _]; subst.
  - eapply first_sep_hex, G'.
  - discriminate Hv.
  - rewrite <- app_assoc. cbn [app]. eapply first_sep_hex, G'.
Qed.

Lemma parse_ip_v6 t x : ipv6_text t x -> parse_ip t = Some x /\ length x = 16.
Proof.
  intros H. destruct (parse_ipv6_text t x H) as [E L]. split; [|exact L]. unfold parse_ip.
  assert (first_sep t = Some 58%N) as ->; [|exact E].
  destruct H as [t' b G|t1 b1 n1 t2 b2 n2 G1 G2 Hn].
  - inversion G as [| |s v t'' b' n' G' _]; subst. eapply first_sep_hex, G'.
  - destruct G1 as [(-> & -> & ->)|G1]; [reflexivity|]. cbn [app]. eapply groups_sep, G1.
Qed.

(** ** AddDstIP *)
Definition dst_added (ex ex' : exclude_config) (k : bytes) : Prop :=
  ex_local ex' = ex_local ex /\ ex_srcports ex' = ex_srcports ex /\
  forall d, dsts_of ex' d <-> d = k \/ dsts_of ex d.

Lemma add_dst_ip_effect ex s ip : parse_ip s = Some ip ->
  exists ex', add_dst_ip ex s = Ret ex' /\ dst_added ex ex' (dst_key ip).
Proof.
  intros H. unfold add_dst_ip. rewrite H. eexists. split; [reflexivity|].
  repeat split; unfold dsts_of; cbn [ex_dstips].
  - intros (m & Em & Hm). injection Em as <-. cbn in Hm.
    destruct (bytes_eqb d (dst_key ip)) eqn:Eq; [left; apply bytes_eqb_eq, Eq|right]. apply map_of_iff in Hm. exact Hm.
  - intros Hq. eexists. split; [reflexivity|]. cbn.
    destruct (bytes_eqb d (dst_key ip)) eqn:Eq; [reflexivity|]. destruct Hq as [->|Hq].
    + rewrite bytes_eqb_refl in Eq. discriminate.
    + apply map_of_iff. exact Hq.
Qed.

Lemma add_dst_ip_excludes ex s ip : parse_ip s = Some ip ->
  exists ex', add_dst_ip ex s = Ret ex' /\
  forall msg, h_type (m_header msg) = 20%N -> 72 <= length (data_of msg) ->
    (make_archival_record msg (Some ex') = Ret None <->
     hdr_dst (data_of msg) = dst_key ip \/ make_archival_record msg (Some ex) = Ret None).
Proof.
  intros H. destruct (add_dst_ip_effect ex s ip H) as (ex' & E & (K1 & K2 & K3)).
  exists ex'. split; [exact E|]. intros msg Ht Hl. rewrite !make_ret_none_iff. rewrite <- (hdr_dst_raw msg Hl).
  assert (KK : excludes ex' (raw_of msg) <-> hdr_dst (raw_of msg) = dst_key ip \/ excludes ex (raw_of msg)).
  { unfold excludes, should_exclude. rewrite K3, K1. unfold ports_of. rewrite K2. tauto. }
  split.
  - intros (_ & _ & e & Q & Hx). injection Q as <-. apply KK in Hx. destruct Hx; [auto|right; eauto].
  - intros Hx. repeat split; auto. exists ex'. split; [reflexivity|]. apply KK.
    destruct Hx as [Hx|(_ & _ & e & Q & Hx)]; [auto|right]. injection Q as <-. exact Hx.
Qed.

Lemma to4_mapped x : length x = 16 -> (to4 x <> None <-> v4_mapped x).
Proof.
  intros H. unfold to4, v4_mapped. rewrite H. cbn [Nat.eqb andb].
  assert (Z : all_zero (firstn 10 x) = true <-> forall i, i < 10 -> nthb i x = 0%N).
  { rewrite all_zero_iff. rewrite firstn_length, H. cbn [Nat.min]. unfold nthb.
    split; intros K i Hi; specialize (K i Hi).
    - rewrite <- (firstn_skipn 10 x), app_nth1; [exact K|rewrite firstn_length; lia].
    - rewrite <- (firstn_skipn 10 x), app_nth1 in K; [exact K|rewrite firstn_length; lia]. }
  unfold bget, nthb in *. destruct (all_zero (firstn 10 x)); cbn [andb].
  - destruct ((bval (nth 10 x x00) =? 255)%N) eqn:E10; cbn [andb]; [destruct ((bval (nth 11 x x00) =? 255)%N) eqn:E11|].
    + split; [intros _|discriminate]. repeat split; [apply Z; reflexivity|lia|lia].
    + split; [congruence|]. intros (_ & _ & K). lia.
    + split; [congruence|]. intros (_ & K & _). lia.
  - split; [congruence|]. intros (K & _). apply Z in K. discriminate.
Qed.
Lemma dst_key_v6 x : length x = 16 -> ~ v4_mapped x -> dst_key x = x.
Proof.
  intros H K. rewrite <- (to4_mapped x H) in K. unfold dst_key. destruct (to4 x); [|reflexivity].
  exfalso. apply K. discriminate.
Qed.

Lemma add_dst_v4 ex a b c d : (a < 256)%N -> (b < 256)%N -> (c < 256)%N -> (d < 256)%N ->
  exists ex', add_dst_ip ex (dotted a b c d) = Ret ex' /\
  forall msg, h_type (m_header msg) = 20%N -> 72 <= length (data_of msg) ->
    (make_archival_record msg (Some ex') = Ret None <->
     hdr_dst (data_of msg) = [byte_of a; byte_of b; byte_of c; byte_of d] ++ repeat x00 12
     \/ make_archival_record msg (Some ex) = Ret None).
Proof.
  intros. apply (add_dst_ip_excludes ex (dotted a b c d) _ (parse_ip_dotted a b c d H H0 H1 H2)).
Qed.
Lemma add_dst_v6 ex t x : ipv6_text t x -> ~ v4_mapped x ->
  exists ex', add_dst_ip ex t = Ret ex' /\
  forall msg, h_type (m_header msg) = 20%N -> 72 <= length (data_of msg) ->
    (make_archival_record msg (Some ex') = Ret None <->
     hdr_dst (data_of msg) = x \/ make_archival_record msg (Some ex) = Ret None).
Proof.
  intros H K. destruct (parse_ip_v6 t x H) as [E L].
  destruct (add_dst_ip_excludes ex t x E) as (ex' & E' & M). exists ex'. split; [exact E'|].
  rewrite (dst_key_v6 x L K) in M. exact M.
Qed.
Lemma first_sep_none s : (forall b, In b s -> b <> x2e /\ b <> x3a) -> first_sep s = None.
Proof.
  induction s as [|b s IH]; intros H; [reflexivity|]. cbn [first_sep].
  destruct (H b (or_introl eq_refl)) as [H1 H2].
  destruct ((bval b =? 46) || (bval b =? 58))%N eqn:E.
  - exfalso. apply orb_true_iff in E. destruct E as [E|E]; apply N.eqb_eq in E.
    + apply H1. apply bval_inj. exact E. + apply H2. apply bval_inj. exact E.
  - apply IH. intros c Hc. apply H. right. exact Hc.
Qed.
Lemma add_dst_invalid ex s : (forall b, In b s -> b <> x2e /\ b <> x3a) -> add_dst_ip ex s = Fail ErrInvalidIP.
Proof. intros H. unfold add_dst_ip, parse_ip. rewrite first_sep_none by exact H. reflexivity. Qed.
Lemma add_dst_mapped ex t x : ipv6_text t x -> v4_mapped x ->
  exists ex', add_dst_ip ex t = Ret ex' /\
  forall msg, h_type (m_header msg) = 20%N -> 72 <= length (data_of msg) ->
    (make_archival_record msg (Some ex') = Ret None <->
     hdr_dst (data_of msg) = at_ 12 4 x ++ repeat x00 12 \/ make_archival_record msg (Some ex) = Ret None).
Proof.
  intros H K. destruct (parse_ip_v6 t x H) as [E L].
  destruct (add_dst_ip_excludes ex t x E) as (ex' & E' & M). exists ex'. split; [exact E'|].
  assert (dst_key x = at_ 12 4 x ++ repeat x00 12) as <-; [|exact M].
  unfold dst_key. apply (to4_mapped x L) in K. destruct (to4 x); [|congruence]. f_equal. unfold at_.
  symmetry. apply firstn_all2. rewrite skipn_length. lia.
Qed.
