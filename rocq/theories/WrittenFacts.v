(** The lines that are written are as SpecLine.v says. *)
From Coq Require Import Strings.String List NArith ZArith Lia Bool.
From Coq Require Import ZifyBool ZifyNat ZifyN.
From Verif Require Import GoBase GoBaseFacts GoTime TimeFacts Rfc3339 Rfc3339Facts Json SpecJson JsonFacts SpecGrammar GrammarFacts SpellFacts.
From Verif Require Import Base64 Base64Facts Netlink Inetdiag EventServer Archive SpecArchive ArchiveFacts EventClient SpecPath PathFacts SpecLine.
Import ListNotations.
Local Open Scope list_scope.

(** * base64 *)
Lemma bits_split j k n : bits (j + k) n = bits j (n / 2 ^ N.of_nat k) ++ bits k n.
Proof.
  induction j as [|j IH]; [reflexivity|]. cbn [Nat.add bits app]. rewrite IH. f_equal.
  rewrite N.div_pow2_bits. f_equal. lia.
Qed.
Lemma bits_mod k m n : (k <= m)%nat -> bits k (n mod 2 ^ N.of_nat m) = bits k n.
Proof. induction k as [|k IH]; intros L; [reflexivity|]. cbn [bits]. rewrite IH by lia. f_equal. apply N.mod_pow2_bits_low. lia. Qed.
Lemma bits_length k n : length (bits k n) = k.
Proof. induction k as [|k IH]; [reflexivity|]. cbn [bits length]. rewrite IH. reflexivity. Qed.
Lemma bits_inj k a b : (a < 2 ^ N.of_nat k)%N -> (b < 2 ^ N.of_nat k)%N -> bits k a = bits k b -> a = b.
Proof.
  intros A B E. apply N.bits_inj. intros i.
  assert (G : forall k', bits k' a = bits k' b -> forall i, (i < N.of_nat k')%N -> N.testbit a i = N.testbit b i).
  { clear. induction k' as [|k IH]; intros E i L; [lia|]. cbn [bits] in E. injection E as E1 E2.
    destruct (N.eq_dec i (N.of_nat k)) as [->|Ne]; [exact E1|]. apply IH; [exact E2|lia]. }
  destruct (N.lt_ge_cases i (N.of_nat k)) as [L|L]; [exact (G k E i L)|].
  assert (Z : forall x, (x < 2 ^ N.of_nat k)%N -> N.testbit x i = false).
  { intros x X. rewrite <- (N.mod_small x (2 ^ N.of_nat k)) by exact X. apply N.mod_pow2_bits_high. exact L. }
  rewrite !Z by assumption. reflexivity.
Qed.
Lemma sixth_char v : sixth (b64_char v) (v mod 64).
Proof.
  assert (T : forallb (fun k => let c := bval (nth k alphabet x00) in let v := N.of_nat k in
    ((65 <=? c) && (c <=? 90) && (v =? c - 65) || (97 <=? c) && (c <=? 122) && (v =? c - 71) || (48 <=? c) && (c <=? 57) && (v =? c + 4) ||
     (c =? 43) && (v =? 62) || (c =? 47) && (v =? 63))%N) (seq 0 64) = true) by (vm_compute; reflexivity).
  rewrite forallb_forall in T. specialize (T (N.to_nat (v mod 64))). unfold sixth, b64_char.
  assert (L : (v mod 64 < 64)%N) by (apply N.mod_lt; discriminate). rewrite in_seq in T. specialize (T ltac:(lia)). cbv zeta in T.
  rewrite N2Nat.id in T. revert T. generalize (bval (nth (N.to_nat (v mod 64)) alphabet x00)). generalize (v mod 64)%N. intros a c T. clear L. lia.
Qed.
Lemma unit6_eq v : bits 6 (v mod 64) = bits 6 v.
Proof. change 64%N with (2 ^ N.of_nat 6)%N. apply bits_mod. lia. Qed.
Lemma bits8 n c : (n mod 256 = bval c)%N -> bits 8 n = bits 8 (bval c).
Proof. intros <-. symmetry. change 256%N with (2 ^ N.of_nat 8)%N. apply bits_mod. lia. Qed.
Lemma bits24 v : bits 6 (v / 262144) ++ bits 6 (v / 4096) ++ bits 6 (v / 64) ++ bits 6 v = bits 8 (v / 65536) ++ bits 8 (v / 256) ++ bits 8 v.
Proof.
  transitivity (bits (6 + (6 + (6 + 6))) v).
  - rewrite !bits_split. reflexivity.
  - change (6 + (6 + (6 + 6)))%nat with (8 + (8 + 8))%nat. rewrite !bits_split. reflexivity.
Qed.
Lemma app_cut {A} (a a' b b' : list A) : length a = length a' -> a ++ b = a' ++ b' -> a = a' /\ b = b'.
Proof.
  revert a'. induction a as [|x a IH]; intros [|y a'] L E; try discriminate L; [split; [reflexivity|exact E]|].
  injection L as L. injection E as -> E. destruct (IH a' L E) as [-> ->]. split; reflexivity.
Qed.
Ltac div_lia := Z.to_euclidean_division_equations; lia.
Lemma strict_encode n : forall b, (length b <= n)%nat -> strict64 b (b64_encode b).
Proof.
  induction n as [|n IH]; intros b L.
  { destruct b; [|cbn in L; lia]. exists [], [], 0%nat, 0%nat. repeat split; try constructor; cbn; try lia. exists 0%nat. reflexivity. }
  destruct b as [|a [|b [|c r]]].
  - exists [], [], 0%nat, 0%nat. repeat split; try constructor; cbn; try lia. exists 0%nat. reflexivity.
  - cbn [b64_encode]. set (v := (bval a * 65536)%N). pose proof (bval_lt a) as A.
    exists [b64_char (v / 262144); b64_char (v / 4096)], [(v / 262144) mod 64; (v / 4096) mod 64]%N, 4%nat, 2%nat.
    split; [repeat (constructor; [apply sixth_char|]); constructor|]. split; [|repeat split; cbn; try lia; exists 1%nat; reflexivity].
    cbn [map concat]. rewrite !unit6_eq. pose proof (bits24 v) as B. rewrite (app_assoc (bits 6 _) (bits 6 _)) in B.
    rewrite (bits8 (v / 65536) a) in B by (unfold v; div_lia).
    assert (E : bits 8 (v / 256) ++ bits 8 v = repeat false 4 ++ repeat false 12).
    { rewrite (bits8 (v / 256) x00), (bits8 v x00) by (unfold v; change (bval x00) with 0%N; div_lia). reflexivity. }
    rewrite E in B. rewrite (app_assoc (bits 8 _)) in B. apply app_cut in B as [B _]; [|rewrite !app_length, !bits_length; reflexivity].
    rewrite !app_nil_r. exact B.
  - cbn [b64_encode]. set (v := (bval a * 65536 + bval b * 256)%N). pose proof (bval_lt a) as A. pose proof (bval_lt b) as B'.
    exists [b64_char (v / 262144); b64_char (v / 4096); b64_char (v / 64)], [(v / 262144) mod 64; (v / 4096) mod 64; (v / 64) mod 64]%N, 2%nat, 1%nat.
    split; [repeat (constructor; [apply sixth_char|]); constructor|]. split; [|repeat split; cbn; try lia; exists 1%nat; reflexivity].
    cbn [map concat]. rewrite !unit6_eq. pose proof (bits24 v) as B.
    rewrite (bits8 (v / 65536) a), (bits8 (v / 256) b) in B by (unfold v; div_lia).
    assert (E : bits 8 v = repeat false 2 ++ repeat false 6).
    { rewrite (bits8 v x00) by (unfold v; change (bval x00) with 0%N; div_lia). reflexivity. }
    rewrite E in B. assert (B2 : (bits 6 (v / 262144) ++ bits 6 (v / 4096) ++ bits 6 (v / 64)) ++ bits 6 v =
      (bits 8 (bval a) ++ bits 8 (bval b) ++ repeat false 2) ++ repeat false 6) by (rewrite <- !app_assoc; exact B).
    apply app_cut in B2 as [B2 _]; [|rewrite !app_length, !bits_length; reflexivity].
    rewrite !app_nil_r. rewrite <- !app_assoc. exact B2.
  - destruct (IH r ltac:(cbn in L; lia)) as (cs & vs & q & p & F & E & Q & X & P & D). cbn [b64_encode]. rewrite X in *. clear X.
    set (v := (bval a * 65536 + bval b * 256 + bval c)%N). pose proof (bval_lt a) as A. pose proof (bval_lt b) as B'. pose proof (bval_lt c) as C.
    exists (b64_char (v / 262144) :: b64_char (v / 4096) :: b64_char (v / 64) :: b64_char v :: cs),
      ((v / 262144) mod 64 :: (v / 4096) mod 64 :: (v / 64) mod 64 :: v mod 64 :: vs)%N, q, p.
    split; [repeat (constructor; [apply sixth_char|]); exact F|]. split; [|split; [exact Q|split; [reflexivity|split; [exact P|]]]].
    + cbn [map concat]. rewrite !unit6_eq. pose proof (bits24 v) as B.
      rewrite (bits8 (v / 65536) a), (bits8 (v / 256) b), (bits8 v c) in B by (unfold v; div_lia).
      rewrite E. rewrite <- !app_assoc. apply (f_equal (fun x => x ++ concat (map (fun c => bits 8 (bval c)) r) ++ repeat false q)) in B.
      rewrite <- !app_assoc in B. exact B.
    + cbn [app length]. destruct D as [z D]. exists (S z). cbn [app length] in *. lia.
Qed.
Lemma sixth_small c v : sixth c v -> (v < 64)%N.
Proof. unfold sixth. lia. Qed.
Lemma sixth_char_inj c c' v : sixth c v -> sixth c' v -> c = c'.
Proof. unfold sixth. intros H H'. apply bval_inj. lia. Qed.
Lemma sixth_inj c v v' : sixth c v -> sixth c v' -> v = v'.
Proof. unfold sixth. intros H H'. lia. Qed.
Lemma concat_bits_length {A} k (f : A -> N) l : length (concat (map (fun x => bits k (f x)) l)) = (k * length l)%nat.
Proof. induction l as [|x l IH]; [cbn; lia|]. cbn [map concat]. rewrite app_length, bits_length, IH. cbn. lia. Qed.
Lemma sixths_inj vs : forall vs', Forall (fun v => (v < 64)%N) vs -> Forall (fun v => (v < 64)%N) vs' -> length vs = length vs' ->
  concat (map (bits 6) vs) = concat (map (bits 6) vs') -> vs = vs'.
Proof.
  induction vs as [|v vs IH]; intros [|v' vs'] F F' L E; try discriminate L; [reflexivity|]. injection L as L. inversion F; inversion F'; subst.
  cbn [map concat] in E. apply app_cut in E as [E1 E2]; [|rewrite !bits_length; reflexivity].
  f_equal; [|apply IH; assumption]. apply (bits_inj 6); assumption.
Qed.
Lemma strict64_text b x x' : strict64 b x -> strict64 b x' -> x = x'.
Proof.
  intros (cs & vs & q & p & F & E & Q & X & P & D) (cs' & vs' & q' & p' & F' & E' & Q' & X' & P' & D').
  assert (B : Forall (fun v => (v < 64)%N) vs) by (clear -F; induction F; constructor; [eapply sixth_small; eassumption|assumption]).
  assert (B' : Forall (fun v => (v < 64)%N) vs') by (clear -F'; induction F'; constructor; [eapply sixth_small; eassumption|assumption]).
  pose proof (f_equal (@length bool) E) as L. pose proof (f_equal (@length bool) E') as L'.
  rewrite app_length, repeat_length, (concat_bits_length 6 (fun v => v)), (concat_bits_length 8 bval) in L, L'.
  assert (Lv : length vs = length vs') by lia. assert (q = q') as <- by lia.
  assert (vs = vs') as <- by (apply sixths_inj; try assumption; rewrite E, E'; reflexivity).
  assert (cs = cs') as <-.
  { clear -F F'. revert cs' F'. induction F as [|c v cs vs S _ IH]; intros cs' F'; inversion F'; subst; [reflexivity|].
    f_equal; [eapply sixth_char_inj; eassumption|apply IH; assumption]. }
  subst x x'. rewrite app_length, repeat_length in D, D'. destruct D as [z D], D' as [z' D']. assert (p = p') as <- by lia. reflexivity.
Qed.
Lemma strict64_bytes b b' x : strict64 b x -> strict64 b' x -> b = b'.
Proof.
  intros S S'. pose proof (strict64_text _ _ _ S (strict_encode (length b) b (le_n _))) as E.
  pose proof (strict64_text _ _ _ S' (strict_encode (length b') b' (le_n _))) as E'.
  pose proof (decode_encode b) as D. pose proof (decode_encode b') as D'. rewrite <- E in D. rewrite <- E' in D'. congruence.
Qed.

(** * Harmless texts *)
Lemma harmless_nil : harmless_text [].
Proof. exists []. split; [constructor|reflexivity]. Qed.
Lemma harmless_app x y : harmless_text x -> harmless_text y -> harmless_text (x ++ y).
Proof.
  intros (rs & R & ->) (ss & S & ->). exists (rs ++ ss). split; [apply Forall_app; split; assumption|]. rewrite map_app, concat_app. reflexivity.
Qed.
Definition mild (c : byte) : bool := let v := bval c in ((32 <=? v) && (v <? 128) && negb (v =? 38) && negb (v =? 60) && negb (v =? 62))%N.
Lemma harmless_mild x : Forall (fun c => mild c = true) x -> harmless_text x.
Proof.
  induction 1 as [|c x M _ IH]; [apply harmless_nil|]. apply (harmless_app [c]); [|exact IH]. unfold mild in M. cbv zeta in M.
  exists [bval c]. split.
  - constructor; [|constructor]. unfold harmless. split; [left; lia|]. split; [lia|]. cbn [In]. lia.
  - cbn [map concat]. unfold utf8_of. replace (bval c <? 128)%N with true by lia. rewrite byte_of_bval. reflexivity.
Qed.
Lemma harmless_char r : harmless r -> harmless_text (utf8_of r).
Proof. intros H. exists [r]. split; [constructor; [exact H|constructor]|]. cbn [map concat]. rewrite app_nil_r. reflexivity. Qed.
Lemma harmless_cons c x : mild c = true -> harmless_text x -> harmless_text (c :: x).
Proof. intros M H. apply (harmless_app [c]); [apply harmless_mild; constructor; [exact M|constructor]|exact H]. Qed.
Lemma quote_ascii_mild c : (bval c < 128)%N -> Forall (fun c => mild c = true) (quote_ascii c).
Proof. intros H. destruct c; try (repeat (constructor; [reflexivity|]); constructor); exfalso; revert H; apply N.le_ngt; intros K; discriminate K. Qed.

(** * Strings *)
Lemma utf8_length r : length (utf8_of r) <> 0%nat.
Proof. unfold utf8_of. destruct (r <? 128)%N, (r <? 2048)%N, (r <? 65536)%N; discriminate. Qed.
Lemma quote_char r s : scalar r -> (128 <= r)%N -> r <> 8232%N -> r <> 8233%N -> quote_go 0 0 (utf8_of r ++ s) = utf8_of r ++ quote_go 0 0 s.
Proof.
  intros S L N1 N2. destruct (rune_size_utf8 r s L S) as [Z (a & t & E & B)]. rewrite E in *. cbn [app length] in *. cbn [quote_go].
  replace (bval a <? 128)%N with false by lia. rewrite Z. destruct (separator (a :: t ++ s)) as [d|] eqn:P.
  - exfalso. destruct (separator_some _ _ P) as (c & q & Q & D).
    assert (Lt : (length t = 2)%nat).
    { injection Q as -> Q. unfold rune_size in Z. rewrite Q in Z.
      change (between 194 223 xe2 && cont x80) with false in Z.
      change ((Byte.eqb xe2 xe0 && between 160 191 x80) || ((between 225 236 xe2 || between 238 239 xe2) && cont x80) || (Byte.eqb xe2 xed && between 128 159 x80)) with true in Z.
      cbv iota in Z. destruct (cont c); [|discriminate Z]. injection Z as Z. symmetry. exact Z. }
    destruct t as [|b [|c' [|? ?]]]; try discriminate Lt. cbn [app] in Q. injection Q as -> -> -> ->.
    unfold utf8_of in E. destruct (N.ltb_spec r 128) as [|_]; [lia|]. destruct (N.ltb_spec r 2048) as [|L2]; [discriminate E|].
    destruct (N.ltb_spec r 65536) as [L3|]; [|discriminate E]. injection E as E1 E2 E3.
    assert (H1 := f_equal bval E1). assert (H2 := f_equal bval E2). assert (H3 := f_equal bval E3).
    rewrite bval_byte_of, N.mod_small in H1, H2, H3 by div_lia. change (bval xe2) with 226%N in H1. change (bval x80) with 128%N in H2.
    destruct D as [[-> _]|[-> _]]; [change (bval xa8) with 168%N in H3; apply N1|change (bval xa9) with 169%N in H3; apply N2]; div_lia.
  - rewrite quote_copy. reflexivity.
Qed.
Lemma quote_spec n : forall s, (length s <= n)%nat -> exists s', repaired s s' /\ unquote_go 0 (quote_go 0 0 s) = s' /\ harmless_text (quote_go 0 0 s).
Proof.
  induction n as [|n IH]; intros s L.
  { destruct s; [|cbn in L; lia]. exists []. repeat split; [constructor|apply harmless_nil]. }
  destruct s as [|c s]; [exists []; repeat split; [constructor|apply harmless_nil]|].
  destruct (N.lt_ge_cases (bval c) 128) as [A|A].
  - destruct (IH s ltac:(cbn in L; lia)) as (s' & R & U & H). exists (c :: s').
    assert (E : [c] = utf8_of (bval c)) by (unfold utf8_of; replace (bval c <? 128)%N with true by lia; rewrite byte_of_bval; reflexivity).
    cbn [quote_go]. replace (bval c <? 128)%N with true by lia. split; [|split].
    + change (c :: s) with ([c] ++ s). change (c :: s') with ([c] ++ s'). rewrite E. apply rep_char; [left; lia|exact R].
    + rewrite unquote_ascii by exact A. rewrite U. reflexivity.
    + apply harmless_app; [apply harmless_mild, quote_ascii_mild, A|exact H].
  - destruct (rune_size (c :: s)) as [|k] eqn:Z.
    + destruct (IH s ltac:(cbn in L; lia)) as (s' & R & U & H). exists (utf8_of 65533 ++ s').
      cbn [quote_go]. replace (bval c <? 128)%N with false by lia. rewrite Z. split; [|split].
      * apply rep_junk; [apply junk_size; split; [exact A|exact Z]|exact R].
      * change ([x5c; x75; x66; x66; x66; x64] ++ quote_go 0 0 s) with (x5c :: x75 :: x66 :: x66 :: x66 :: x64 :: quote_go 0 0 s).
        rewrite unquote_u, U. reflexivity.
      * repeat (apply harmless_cons; [reflexivity|]). exact H.
    + destruct (rune_size_sound _ _ Z) as (r & l & S & B & E & Lr). rewrite E in *.
      destruct (IH l) as (s' & R & U & H).
      { rewrite app_length in L. pose proof (utf8_length r). lia. }
      exists (utf8_of r ++ s'). split; [apply rep_char; [exact S|exact R]|]. split; [rewrite unquote_quote_char, U by exact S; reflexivity|].
      destruct (N.eq_dec r 8232) as [->|N1].
      { change (utf8_of 8232 ++ l) with ([xe2; x80; xa8] ++ l). cbn [app quote_go]. repeat (apply harmless_cons; [reflexivity|]). exact H. }
      destruct (N.eq_dec r 8233) as [->|N2].
      { change (utf8_of 8233 ++ l) with ([xe2; x80; xa9] ++ l). cbn [app quote_go]. repeat (apply harmless_cons; [reflexivity|]). exact H. }
      rewrite quote_char by assumption. apply harmless_app; [|exact H]. apply harmless_char. split; [exact S|]. split; [lia|]. cbn [In]. lia.
Qed.
Lemma quote_chars s : chars (quote s).
Proof.
  pose proof (quote_ok s []) as H. destruct (scan_str_sound _ _ _ _ (le_n _) H) as [_ C]. exact C.
Qed.
Lemma string_written s : string_text s (in_quotes (quote s)).
Proof.
  destruct (quote_spec (length s) s (le_n _)) as (s' & R & U & H). exists (quote s), s'.
  split; [reflexivity|]. split; [apply quote_chars|]. split; [apply unquote_spells; [apply quote_chars|exact U]|]. split; [exact R|exact H].
Qed.
Lemma repaired_fun s s' : repaired s s' -> unquote (quote s) = s'.
Proof.
  unfold unquote, quote. induction 1 as [|r l s' S _ IH|c l s' J _ IH]; [reflexivity|rewrite unquote_quote_char, IH by exact S; reflexivity|].
  apply junk_size in J as [A Z]. cbn [quote_go]. replace (bval c <? 128)%N with false by lia. rewrite Z.
  change ([x5c; x75; x66; x66; x66; x64] ++ quote_go 0 0 l) with (x5c :: x75 :: x66 :: x66 :: x66 :: x64 :: quote_go 0 0 l).
  rewrite unquote_u, IH. reflexivity.
Qed.
Lemma repaired_utf8 s s' : utf8 s -> repaired s s' -> s' = s.
Proof. intros U R. rewrite <- (repaired_fun s s' R). apply unquote_quote, U. Qed.

(** * Numbers and times *)
Lemma padded_append x w : (0 <= x)%Z -> (0 < w)%nat -> padded 10 w (append_int x w) (Z.to_N x).
Proof. intros X W. unfold append_int. destruct (Z.ltb_spec x 0) as [L|_]; [lia|]. apply padded_dec, W. Qed.
Lemma dec_nonempty n : dec n <> [].
Proof. unfold dec. cbn [dec_go]. intros H. apply (f_equal (@rev byte)) in H. rewrite rev_involutive in H. destruct (n <? 10)%N; discriminate H. Qed.
Lemma padded_one n : padded 10 1 (dec n) n.
Proof.
  pose proof (padded_dec 1 n ltac:(lia)) as P. unfold dec_pad in P. pose proof (dec_nonempty n) as E.
  assert (L : (1 - length (dec n) = 0)%nat) by (destruct (dec n); [contradiction|cbn; lia]). rewrite L in P. exact P.
Qed.
Lemma integer_written z : SpecLine.integer_text z (decZ z).
Proof.
  unfold SpecLine.integer_text, decZ. destruct (Z.ltb_spec z 0) as [L|L].
  - right. split; [exact L|]. eexists. split; [reflexivity|]. replace (Z.to_N (- z)) with (Z.to_N (- z)) by reflexivity. apply padded_one.
  - left. split; [exact L|]. apply padded_one.
Qed.
Lemma integer_written_N n : SpecLine.integer_text (Z.of_N n) (dec n).
Proof. left. split; [lia|]. rewrite N2Z.id. apply padded_one. Qed.
Lemma drop_zeros_head l : forall r, drop_zeros l <> x30 :: r.
Proof. induction l as [|c l IH]; intros r; [discriminate|]. cbn [drop_zeros]. destruct c; try discriminate. apply IH. Qed.
Lemma fraction_written ns : (0 <= ns < second)%Z -> fraction_text ns (nano ns).
Proof.
  intros B. destruct (nano_facts ns B) as [[-> E]|(ds & k & E & D & Ne & L & U)]; [left; split; [reflexivity|exact E]|].
  right. exists ds, k. split; [exact E|]. split; [|split; [|split; [exact L|exact Ne]]].
  - intros l El. unfold nano in E. destruct (drop_zeros (rev (dec_pad 9 (Z.to_N ns)))) as [|c z] eqn:Z; [discriminate E|].
    injection E as E. rewrite El in E. change (rev z ++ [c]) with (rev (c :: z)) in E. apply (f_equal (@rev byte)) in E. rewrite rev_involutive, rev_app_distr in E. cbn in E.
    apply (drop_zeros_head (rev (dec_pad 9 (Z.to_N ns))) (rev l)). rewrite Z. exact E.
  - destruct (dec_pad_facts 9 (Z.to_N ns) ltac:(lia)) as (L9 & D9 & V9).
    { change (10 ^ N.of_nat 9)%N with 1000000000%N. unfold second in B. lia. }
    assert (E9 : ds ++ repeat x30 k = dec_pad 9 (Z.to_N ns)).
    { destruct (drop_zeros_spec (rev (dec_pad 9 (Z.to_N ns)))) as [k' E']. unfold nano in E.
      destruct (drop_zeros (rev (dec_pad 9 (Z.to_N ns)))) as [|c z] eqn:Z; [discriminate E|]. injection E as E.
      apply (f_equal (@rev byte)) in E'. rewrite rev_involutive, rev_app_distr, rev_repeat in E'. change (rev z ++ [c]) with (rev (c :: z)) in E. rewrite E in E'.
      rewrite E'. f_equal. f_equal. rewrite E', app_length, repeat_length in L9. lia. }
    rewrite E9. destruct (padded_dec 9 (Z.to_N ns) ltac:(lia)) as [N _]. exact N.
Qed.
Lemma offset_written off : (-1440 < off < 1440)%Z -> offset_text off (zone_text off).
Proof.
  intros B. unfold zone_text. destruct (Z.eqb_spec off 0) as [->|N]; [left; split; reflexivity|]. right.
  exists (if (off <? 0)%Z then (-1)%Z else 1%Z), (Z.abs off / 60)%Z, (Z.abs off mod 60)%Z, (append_int (Z.abs off / 60) 2), (append_int (Z.abs off mod 60) 2).
  split; [destruct (Z.ltb_spec off 0); div_lia|]. split; [div_lia|]. split; [div_lia|]. split; [exact N|].
  split; [apply padded_append; [div_lia|lia]|]. split; [apply padded_append; [div_lia|lia]|].
  destruct (off <? 0)%Z; [right|left]; split; reflexivity.
Qed.
Lemma time_written off t s : marshal_time off t = Some s -> time_text off t (in_quotes s).
Proof.
  unfold marshal_time, rfc3339. set (u := (t + off * minute)%Z).
  pose proof (date_spec u) as V. pose proof (clock_bounds u) as B. pose proof (proj2 (date_at_iff u _) eq_refl) as D.
  assert (C : let '(hh, mm, ss, ns) := clock_of u in (u = (((u / 86400000000000 * 24 + hh) * 60 + mm) * 60 + ss) * 1000000000 + ns)%Z).
  { unfold clock_of, unix, second. cbv zeta. div_lia. }
  destruct (date u) as [[y m] d] eqn:Ed. destruct (clock_of u) as [[[hh mm] ss] ns]. destruct V as [[Hm Hd] _]. destruct B as (B1 & B2 & B3 & B4).
  destruct ((0 <=? y)%Z && (y <=? 9999)%Z && (Z.abs off / 60 <? 24)%Z) eqn:K; [|discriminate].
  assert (Hy : (0 <= y <= 9999)%Z) by lia. assert (Ho : (-1440 < off < 1440)%Z) by (clear -K; div_lia). clear K. intros K. injection K as <-.
  pose proof (month_len_pos y m) as ML.
  destruct D as (n & Bn & Dn). assert (n = u / 86400000000000)%Z as -> by div_lia.
  exists (u / 86400000000000)%Z, y, m, d, hh, mm, ss, ns, (append_int y 4), (append_int m 2), (append_int d 2), (append_int hh 2), (append_int mm 2), (append_int ss 2),
    (nano ns), (zone_text off).
  split; [unfold minute, second in u; unfold u in *; exact C|]. split; [exact Dn|]. unfold second in B4.
  repeat (split; [first [lia|apply padded_append; lia|apply fraction_written; unfold second; lia|apply offset_written; exact Ho]|]).
  reflexivity.
Qed.

(** * Records and events *)
Lemma some_eq {A} (a b : A) : Some a = Some b -> a = b.
Proof. congruence. Qed.
Lemma commas_join l : commas l = join x2c l.
Proof. induction l as [|a [|b l] IH]; [reflexivity..|]. cbn [commas join] in *. rewrite IH. reflexivity. Qed.
Lemma bytes_written b : bytes_text b (render (bytes_json (Some b))).
Proof. exists (b64_encode b). split; [eapply strict_encode, le_n|reflexivity]. Qed.
Lemma slot_written a : slot_text a (render (bytes_json (option_map vis a))).
Proof. destruct a as [s|]; cbn [option_map slot_text]; [apply bytes_written|reflexivity]. Qed.
Lemma render_obj l : render (JObj l) = object (map (fun kv => quoted (fst kv) ++ str ":" ++ render (snd kv)) l).
Proof. cbn [render]. unfold object. rewrite commas_join. reflexivity. Qed.
Lemma render_arr l : render (JArr l) = array (map render l).
Proof. cbn [render]. unfold array. rewrite commas_join. reflexivity. Qed.
Lemma metadata_written zone md j : metadata_json zone md = Some j -> metadata_text zone md (render j).
Proof.
  unfold metadata_json, time_json. destruct (marshal_time _ _) as [t|] eqn:T; [|discriminate]. intros E. apply some_eq in E. subst.
  exists (in_quotes (quote (md_uuid md))), (decZ (md_seq md)), (in_quotes t).
  split; [apply string_written|]. split; [apply integer_written|]. split; [apply time_written, T|]. rewrite render_obj. reflexivity.
Qed.
Lemma record_written zone r x : marshal zone r = Some x -> record_text zone r x.
Proof.
  unfold marshal, archival_json, time_json. destruct (marshal_time _ _) as [t|] eqn:T; [|discriminate].
  set (meta := match ar_meta r with Some md => _ | None => _ end). destruct meta as [mj|] eqn:M; [|discriminate]. subst meta.
  intros E. apply some_eq in E. subst x.
  set (f := fun kv : bytes * json => quoted (fst kv) ++ str ":" ++ render (snd kv)).
  set (rawj := match ar_raw r with Some (c :: b) => _ | _ => _ end).
  set (attrj := match ar_attrs r with [] => _ | _ => _ end).
  exists (in_quotes t), (map f rawj), (map f attrj), (map f mj). split; [apply time_written, T|]. split; [|split; [|split]].
  - subst rawj. destruct (ar_raw r) as [[|c b]|].
    + left. split; [right; reflexivity|reflexivity].
    + right. split; [intros [K|K]; discriminate K|]. eexists. split; [exists (c :: b); split; [reflexivity|apply bytes_written]|reflexivity].
    + left. split; [left; reflexivity|reflexivity].
  - subst attrj. destruct (ar_attrs r) as [|a l].
    + left. split; reflexivity.
    + right. split; [discriminate|]. exists (render (JArr (map (fun a => bytes_json (option_map vis a)) (a :: l)))). split; [|reflexivity].
      eexists. split; [|apply render_arr]. rewrite map_map. clear. generalize (a :: l). clear. intros l. induction l as [|a l IH]; [constructor|].
      cbn [map]. constructor; [apply slot_written|exact IH].
  - destruct (ar_meta r) as [md|].
    + right. split; [discriminate|]. destruct (metadata_json zone md) as [j|] eqn:J; [|discriminate M]. injection M as <-.
      exists (render j). split; [exists md; split; [reflexivity|apply metadata_written, J]|reflexivity].
    + injection M as <-. left. split; reflexivity.
  - rewrite render_obj. f_equal. rewrite !map_app. reflexivity.
Qed.
Lemma event_written zone e x : marshal_event zone e = Some x -> event_line_text zone e x.
Proof.
  unfold marshal_event, event_json, time_json. destruct (marshal_time _ _) as [t|] eqn:T; [|discriminate]. intros E. apply some_eq in E. subst.
  exists (decZ (fe_event e)), (in_quotes t), (in_quotes (quote (fe_uuid e))), (render (match fe_id e with Some id => sockid_json id | None => JNull end)).
  split; [apply integer_written|]. split; [apply time_written, T|]. split; [apply string_written|]. split; [|rewrite render_obj; reflexivity].
  destruct (fe_id e) as [id|]; [|reflexivity]. cbn [sockid_text].
  exists (dec (sid_sport id)), (dec (sid_dport id)), (in_quotes (quote (sid_src id))), (in_quotes (quote (sid_dst id))), (dec (sid_if id)), (decZ (sid_cookie id)).
  repeat (split; [first [apply integer_written_N|apply integer_written|apply string_written]|]). unfold sockid_json. rewrite render_obj. reflexivity.
Qed.

(** * Lines are harmless *)
Lemma quoted_harmless x : harmless_text x -> harmless_text (quoted x).
Proof. intros H. apply harmless_cons; [reflexivity|]. apply harmless_app; [exact H|]. apply harmless_cons; [reflexivity|apply harmless_nil]. Qed.
Lemma numeral_mild t n : numeral 10 t n -> Forall (fun c => mild c = true) t.
Proof.
  induction 1 as [|t n c d _ IH M _]; [constructor|]. apply Forall_app. split; [exact IH|]. constructor; [|constructor].
  unfold digit_means in M. unfold mild. cbv zeta. lia.
Qed.
Lemma padded_harmless w t n : padded 10 w t n -> harmless_text t.
Proof. intros [N _]. apply harmless_mild. eapply numeral_mild, N. Qed.
Lemma integer_harmless z x : SpecLine.integer_text z x -> harmless_text x.
Proof.
  intros [[_ P]|(_ & t & -> & P)]; [eapply padded_harmless, P|]. apply harmless_cons; [reflexivity|]. eapply padded_harmless, P.
Qed.
Lemma strict64_harmless b x : strict64 b x -> harmless_text x.
Proof.
  intros (cs & vs & q & p & F & _ & _ & -> & _ & _). apply harmless_app.
  - apply harmless_mild. induction F as [|c v cs vs S _ IH]; constructor; [|exact IH]. unfold sixth in S. unfold mild. cbv zeta. lia.
  - apply harmless_mild. induction p; constructor; [reflexivity|assumption].
Qed.
Lemma string_harmless s x : string_text s x -> harmless_text x.
Proof. intros (y & s' & -> & _ & _ & _ & H). apply quoted_harmless, H. Qed.
Lemma fraction_harmless ns x : fraction_text ns x -> harmless_text x.
Proof.
  intros [[_ ->]|(d & z & -> & _ & N & _)]; [apply harmless_nil|]. apply harmless_cons; [reflexivity|]. apply harmless_mild.
  apply numeral_mild in N. apply Forall_app in N. exact (proj1 N).
Qed.
Lemma offset_harmless off x : offset_text off x -> harmless_text x.
Proof.
  intros [[_ ->]|(s & h & m & H & M & _ & _ & _ & _ & PH & PM & [[_ ->]|[_ ->]])]; [apply harmless_mild; repeat constructor|..];
    (apply harmless_cons; [reflexivity|]; apply harmless_app; [eapply padded_harmless, PH|]; apply harmless_cons; [reflexivity|]; eapply padded_harmless, PM).
Qed.
Lemma time_harmless off t x : time_text off t x -> harmless_text x.
Proof.
  intros (n & y & m & d & hh & mm & ss & ns & Y & M & D & h & i & s & f & z & _ & _ & _ & _ & _ & _ & _ & P1 & P2 & P3 & P4 & P5 & P6 & F & O & ->).
  apply quoted_harmless.
  repeat first [apply harmless_app|eapply padded_harmless; eassumption|eapply fraction_harmless; eassumption|eapply offset_harmless; eassumption|apply harmless_mild; repeat constructor].
Qed.
Lemma member_harmless k x : Forall (fun c => mild c = true) (str k) -> harmless_text x -> harmless_text (member k x).
Proof. intros K H. unfold member. apply harmless_app; [apply quoted_harmless, harmless_mild, K|]. apply harmless_cons; [reflexivity|exact H]. Qed.
Lemma commas_harmless l : Forall harmless_text l -> harmless_text (commas l).
Proof.
  induction 1 as [|x l H F IH]; [apply harmless_nil|]. destruct l as [|y l]; [exact H|]. cbn [commas] in *. apply harmless_app; [exact H|].
  apply harmless_cons; [reflexivity|exact IH].
Qed.
Lemma object_harmless l : Forall harmless_text l -> harmless_text (object l).
Proof. intros F. apply harmless_cons; [reflexivity|]. apply harmless_app; [apply commas_harmless, F|]. apply harmless_mild. repeat constructor. Qed.
Lemma array_harmless l : Forall harmless_text l -> harmless_text (array l).
Proof. intros F. apply harmless_cons; [reflexivity|]. apply harmless_app; [apply commas_harmless, F|]. apply harmless_mild. repeat constructor. Qed.
Lemma optional_harmless k out (P : bytes -> Prop) l : Forall (fun c => mild c = true) (str k) -> (forall x, P x -> harmless_text x) -> optional k out P l -> Forall harmless_text l.
Proof. intros K H [[_ ->]|(_ & x & Px & ->)]; [constructor|]. constructor; [apply member_harmless; [exact K|apply H, Px]|constructor]. Qed.
Lemma bytes_harmless b x : bytes_text b x -> harmless_text x.
Proof. intros (y & S & ->). apply quoted_harmless. eapply strict64_harmless, S. Qed.
Ltac members := repeat first [apply Forall_nil|apply Forall_cons; [apply member_harmless; [repeat constructor|]|]].
Lemma metadata_harmless zone md x : metadata_text zone md x -> harmless_text x.
Proof.
  intros (u & n & t & U & N & T & ->). apply object_harmless. members; [eapply string_harmless, U|eapply integer_harmless, N|eapply time_harmless, T].
Qed.
Lemma record_harmless zone r x : record_text zone r x -> harmless_text x.
Proof.
  intros (t & raw & attrs & meta & T & R & A & M & ->). apply object_harmless. apply Forall_cons; [apply member_harmless; [repeat constructor|eapply time_harmless, T]|].
  apply Forall_app. split; [|apply Forall_app; split].
  - eapply optional_harmless; [| |exact R]; [repeat constructor|]. intros y (b & _ & B). eapply bytes_harmless, B.
  - eapply optional_harmless; [| |exact A]; [repeat constructor|]. intros y (l & F & ->). apply array_harmless. clear A.
    induction F as [|a y s l S _ IH]; constructor; [|exact IH]. destruct a as [g|]; [eapply bytes_harmless, S|]. rewrite S. apply harmless_mild. repeat constructor.
  - eapply optional_harmless; [| |exact M]; [repeat constructor|]. intros y (md & _ & B). eapply metadata_harmless, B.
Qed.
Lemma event_harmless zone e x : event_line_text zone e x -> harmless_text x.
Proof.
  intros (n & t & u & id & N & T & U & I & ->). apply object_harmless. members; [eapply integer_harmless, N|eapply time_harmless, T|eapply string_harmless, U|].
  destruct (fe_id e) as [k|]; [|rewrite I; apply harmless_mild; repeat constructor].
  destruct I as (sp & dp & s & d & i & c & H1 & H2 & H3 & H4 & H5 & H6 & ->). apply object_harmless.
  members; first [eapply integer_harmless; eassumption|eapply string_harmless; eassumption].
Qed.
Lemma harmless_line x : harmless_text x -> utf8 x /\ Forall (fun c => (32 <= bval c)%N) x.
Proof.
  intros (rs & F & ->). split; [exists rs; split; [eapply Forall_impl; [|exact F]; intros r [S _]; exact S|reflexivity]|].
  induction F as [|r rs (S & L & _) _ IH]; [constructor|]. cbn [map concat]. apply Forall_app. split; [|exact IH].
  destruct (N.lt_ge_cases r 128) as [A|A].
  - unfold utf8_of. replace (r <? 128)%N with true by lia. constructor; [rewrite bval_small; lia|constructor].
  - eapply Forall_impl; [|apply utf8_high; [exact A|exact S]]. intros c C. cbv beta in C. lia.
Qed.
