(** Lines that are as SpecLine.v says are read as what they stand for, whoever wrote them. *)
From Coq Require Import Strings.String List NArith ZArith Lia Bool.
From Coq Require Import ZifyBool ZifyNat ZifyN.
From Verif Require Import GoBase GoBaseFacts GoTime TimeFacts Rfc3339 Rfc3339Facts Json SpecJson JsonFacts SpecGrammar GrammarFacts SpellFacts.
From Verif Require Import Base64 Base64Facts Netlink Inetdiag EventServer Archive SpecArchive ArchiveFacts EventClient ClientFacts SpecPath PathFacts SpecLine WrittenFacts.
Import ListNotations.
Local Open Scope list_scope.

(** * Numerals have one text *)
Lemma numeral_text t n : numeral 10 t n -> forall t', numeral 10 t' n -> length t = length t' -> t = t'.
Proof.
  induction 1 as [|t n c d N IH M L]; intros t' N' E.
  - destruct t'; [reflexivity|discriminate E].
  - inversion N' as [Et En|t0 n0 c0 d0 N0 M0 L0 Et En]; subst.
    + rewrite app_length in E. cbn in E. lia.
    + change (10 * n0 + d0 = 10 * n + d)%N in En. assert (n0 = n /\ d0 = d) as [-> ->] by lia. rewrite !app_length in E. cbn in E. rewrite (IH t0 N0) by lia.
      assert (c0 = c) as ->; [|reflexivity]. apply bval_inj. unfold digit_means in M, M0. lia.
Qed.
Lemma numeral_below t n : numeral 10 t n -> (n < 10 ^ N.of_nat (length t))%N.
Proof.
  induction 1 as [|t n c d N IH M L]; [cbn; lia|]. rewrite app_length. cbn [length].
  replace (N.of_nat (length t + 1)) with (N.succ (N.of_nat (length t))) by lia. rewrite N.pow_succ_r'. lia.
Qed.
Lemma numeral_above t n : numeral 10 t n -> t <> [] -> (forall r, t <> x30 :: r) -> (10 ^ N.of_nat (length t - 1) <= n)%N.
Proof.
  induction 1 as [|t n c d N IH M L]; intros Ne Z; [contradiction|]. rewrite app_length. cbn [length].
  destruct t as [|a t].
  - cbn. assert (d <> 0%N); [|lia]. intros ->. apply (Z []). cbn. f_equal. apply bval_inj. unfold digit_means in M. change (bval x30) with 48%N. lia.
  - assert (P : (10 ^ N.of_nat (length (a :: t) - 1) <= n)%N).
    { apply IH; [discriminate|]. intros r E. apply (Z (r ++ [c])). rewrite E. reflexivity. }
    cbn [length] in *. replace (N.of_nat (S (length t) + 1 - 1)) with (N.succ (N.of_nat (S (length t) - 1))) by lia. rewrite N.pow_succ_r'. lia.
Qed.
Lemma padded_text w t t' n : (0 < w)%nat -> padded 10 w t n -> padded 10 w t' n -> t = t'.
Proof.
  assert (G : forall t t' n, numeral 10 t n -> numeral 10 t' n -> (0 < length t < length t')%nat -> (forall r, t' <> x30 :: r) -> False).
  { intros a b k A B L Z. pose proof (numeral_below _ _ A) as U. pose proof (numeral_above _ _ B ltac:(destruct b; [cbn in L; lia|discriminate]) Z) as V.
    assert (P : (10 ^ N.of_nat (length a) <= 10 ^ N.of_nat (length b - 1))%N) by (apply N.pow_le_mono_r; lia). lia. }
  intros W [N L] [N' L']. apply (numeral_text t n N t' N').
  destruct (Nat.lt_trichotomy (length t) (length t')) as [C|[C|C]]; [exfalso|exact C|exfalso].
  - destruct L' as [L'|[_ Z]]; [lia|]. apply (G t t' n N N'); [lia|exact Z].
  - destruct L as [L|[_ Z]]; [lia|]. apply (G t' t n N' N); [lia|exact Z].
Qed.
Lemma integer_read z x : SpecLine.integer_text z x -> x = decZ z.
Proof.
  intros [[L P]|(L & t & -> & P)]; unfold decZ.
  - replace (z <? 0)%Z with false by lia. exact (padded_text 1 _ _ _ ltac:(lia) P (padded_one _)).
  - replace (z <? 0)%Z with true by lia. rewrite (padded_text 1 _ _ _ ltac:(lia) P (padded_one _)). reflexivity.
Qed.
Lemma integer_read_N n x : SpecLine.integer_text (Z.of_N n) x -> x = dec n.
Proof. intros H. rewrite (integer_read _ _ H), dec_decZ. reflexivity. Qed.

(** * Times *)
Lemma strip_zeros a : forall b c k, c + length a = k + length b -> (forall l, a <> l ++ str "0") -> (forall l, b <> l ++ str "0") ->
  a ++ repeat x30 c = b ++ repeat x30 k -> a = b.
Proof.
  assert (R : forall n, repeat x30 (S n) = repeat x30 n ++ str "0") by (intros n; symmetry; exact (eq_sym (repeat_cons n x30))).
  intros b c. revert a b. induction c as [|c IH]; intros a b k L A B E.
  - destruct k as [|k]; [cbn [repeat] in E; rewrite !app_nil_r in E; exact E|].
    exfalso. rewrite R, app_assoc in E. cbn [repeat] in E. rewrite app_nil_r in E. exact (A _ E).
  - destruct k as [|k].
    + exfalso. rewrite R, app_assoc in E. cbn [repeat] in E. rewrite app_nil_r in E. exact (B _ (eq_sym E)).
    + rewrite !R, !app_assoc in E. apply app_inj_tail in E as [E _]. apply (IH a b k); [lia|assumption..].
Qed.
Lemma fraction_unique ns f f' : fraction_text ns f -> fraction_text ns f' -> f = f'.
Proof.
  assert (Z : forall d z, (forall l, d <> l ++ str "0") -> numeral 10 (d ++ repeat x30 z) (Z.to_N 0) -> length d + z = 9 -> d <> [] -> False).
  { intros d z A N L Ne. apply Ne. pose proof (numeral_zeros 9 [] 0 (nu_nil 10)) as N9.
    apply (strip_zeros d [] z 9); [cbn [length]; lia|exact A|intros l E; destruct l; discriminate E|].
    rewrite (numeral_text _ _ N _ N9); [apply app_nil_r|]. rewrite !app_length, !repeat_length. cbn [length]. lia. }
  intros [[-> ->]|(d & z & -> & A & N & L & Ne)] [[E ->]|(d' & z' & -> & A' & N' & L' & Ne')].
  - reflexivity.
  - destruct (Z _ _ A' N' L' Ne').
  - subst. destruct (Z _ _ A N L Ne).
  - f_equal. apply (strip_zeros d d' z z'); [lia|assumption..|]. apply (numeral_text _ _ N _ N'). rewrite !app_length, !repeat_length. lia.
Qed.
Lemma offset_unique off x x' : offset_text off x -> offset_text off x' -> x = x'.
Proof.
  intros [[-> ->]|(s & h & m & H & M & E & Bh & Bm & Ne & PH & PM & C)] [[E' ->]|(s' & h' & m' & H' & M' & E' & Bh' & Bm' & Ne' & PH' & PM' & C')];
    try reflexivity; try contradiction.
  assert (s = s' /\ h = h' /\ m = m') as (-> & -> & ->) by (destruct C as [[-> _]|[-> _]], C' as [[-> _]|[-> _]]; lia).
  rewrite (padded_text 2 _ _ _ ltac:(lia) PH PH') in C. rewrite (padded_text 2 _ _ _ ltac:(lia) PM PM') in C.
  destruct C as [[S ->]|[S ->]], C' as [[S' ->]|[S' ->]]; try reflexivity; lia.
Qed.
Lemma offset_range off x : offset_text off x -> (-1440 < off < 1440)%Z.
Proof. intros [[-> _]|(s & h & m & H & M & E & Bh & Bm & Ne & PH & PM & [[-> _]|[-> _]])]; lia. Qed.
Lemma time_unique off t x x' : time_text off t x -> time_text off t x' -> x = x'.
Proof.
  intros (n & y & m & d & hh & mm & ss & ns & Y & M & D & h & i & s & f & z & E & Dn & B1 & B2 & B3 & B4 & B5 & P1 & P2 & P3 & P4 & P5 & P6 & F & O & ->).
  intros (n' & y' & m' & d' & hh' & mm' & ss' & ns' & Y' & M' & D' & h' & i' & s' & f' & z' & E' & Dn' & B1' & B2' & B3' & B4' & B5' & P1' & P2' & P3' & P4' & P5' & P6' & F' & O' & ->).
  assert (n' = n /\ hh' = hh /\ mm' = mm /\ ss' = ss /\ ns' = ns) as (-> & -> & -> & -> & ->).
  { rewrite E in E'. clear -E' B1 B2 B3 B4 B1' B2' B3' B4'. lia. }
  apply day_is_iff in Dn, Dn'. rewrite <- Dn' in Dn. injection Dn as -> -> ->.
  rewrite (padded_text 4 _ _ _ ltac:(lia) P1 P1'), (padded_text 2 _ _ _ ltac:(lia) P2 P2'), (padded_text 2 _ _ _ ltac:(lia) P3 P3'),
    (padded_text 2 _ _ _ ltac:(lia) P4 P4'), (padded_text 2 _ _ _ ltac:(lia) P5 P5'), (padded_text 2 _ _ _ ltac:(lia) P6 P6'),
    (fraction_unique _ _ _ F F'), (offset_unique _ _ _ O O'). reflexivity.
Qed.
Lemma time_read off t x : time_text off t x -> exists s, marshal_time off t = Some s /\ x = in_quotes s.
Proof.
  intros T. assert (Sm : exists s, marshal_time off t = Some s).
  { destruct T as (n & y & m & d & hh & mm & ss & ns & Y & M & D & h & i & s & f & z & E & Dn & B1 & B2 & B3 & B4 & B5 & _ & _ & _ & _ & _ & _ & _ & O & _).
    apply offset_range in O. unfold marshal_time. change (off * minute)%Z with (off * 60000000000)%Z. rewrite E.
    rewrite <- (proj1 (date_at_iff _ (y, m, d))); [|exists n; split; [lia|exact Dn]].
    replace ((0 <=? y)%Z && (y <=? 9999)%Z && (Z.abs off / 60 <? 24)%Z) with true; [eauto|]. clear -B5 O. symmetry. Z.to_euclidean_division_equations. lia. }
  destruct Sm as [s Es]. exists s. split; [exact Es|]. apply (time_unique off t); [exact T|apply time_written, Es].
Qed.

(** * Strings and bytes *)
Lemma string_read s x : string_text s x -> exists y, x = in_quotes y /\ str_ok y /\ repaired s (unquote y).
Proof.
  intros (y & s' & -> & C & S & R & _). exists y. split; [reflexivity|]. split; [exact (scan_str_complete y C)|].
  apply unquote_spells in S as <-; assumption.
Qed.
Lemma bytes_read b x : bytes_text b x -> x = render (bytes_json (Some b)).
Proof. intros (y & S & ->). rewrite (strict64_text b _ _ S (strict_encode (length b) b (le_n _))). reflexivity. Qed.
Lemma slot_read a x : slot_text a x -> x = render (bytes_json (option_map vis a)).
Proof. destruct a as [s|]; cbn [slot_text option_map]; [apply bytes_read|intros ->; reflexivity]. Qed.
Lemma slots_read l xs : Forall2 slot_text l xs -> xs = map (fun a => render (bytes_json (option_map vis a))) l.
Proof. induction 1 as [|a x l xs H _ IH]; [reflexivity|]. cbn [map]. rewrite (slot_read _ _ H), IH. reflexivity. Qed.

(** * Records *)
Definition renders (kv : bytes * json) : bytes := quoted (fst kv) ++ str ":" ++ render (snd kv).
Lemma metadata_read zone md x : metadata_text zone md x -> int64 (md_seq md) ->
  exists j md', x = render j /\ wf j /\ (depth j <= 1)%N /\ read_metadata j None = Some (Some md') /\ metadata_as md md'.
Proof.
  intros (u & n & t & U & N & T & ->) I. destruct (string_read _ _ U) as (y & -> & Y & R). apply integer_read in N as ->.
  destruct (time_read _ _ _ T) as (s & Es & ->). destruct (time_ok zone _ s Es) as [S P].
  exists (JObj [(str "UUID", JStr y); (str "Sequence", JNum (decZ (md_seq md))); (str "StartTime", JStr s)]), (mkmeta (unquote y) (md_seq md) (md_start md)).
  split; [rewrite render_obj; reflexivity|]. split; [|split; [|split]].
  - constructor. repeat (apply Forall_cons; [split; [apply key_ok; repeat constructor|cbn [snd]; constructor; first [exact Y|apply decZ_ok|exact S]]|]). apply Forall_nil.
  - discriminate.
  - cbn [read_metadata read_fields]. unfold metadata_field at 1. keys. cbn [read_string].
    unfold metadata_field at 1. keys. cbn [read_int]. unfold min_int64, max_int64. rewrite parse_int_decZ by exact I.
    unfold metadata_field at 1. keys. rewrite P. reflexivity.
  - split; [exact R|split; reflexivity].
Qed.
Lemma record_read zone r x : record_text zone r x -> record_numbers r -> exists r', unmarshal x = Ret r' /\ record_as r r'.
Proof.
  intros (t & raw & attrs & meta & T & Rw & At & Mt & ->) Nu. destruct (time_read _ _ _ T) as (s & Es & ->). destruct (time_ok zone _ s Es) as [S P].
  set (good := fun ms : list (bytes * json) => Forall (fun kv => str_ok (fst kv) /\ wf (snd kv)) ms /\ Forall (fun kv => depth (snd kv) <= 1)%N ms).
  assert (Hr : exists ms b, raw = map renders ms /\ good ms /\ (b = ar_raw r \/ ar_raw r = Some [] /\ b = None) /\
    forall t, read_fields archival_field ms (mkar t None [] None) = Some (mkar t b [] None)).
  { destruct Rw as [[O ->]|(O & y & (b & Eb & B) & ->)].
    - exists [], None. split; [reflexivity|]. split; [split; constructor|]. split; [|reflexivity]. destruct O as [->| ->]; auto.
    - exists [(str "RawIDM", bytes_json (Some b))], (Some b). split; [rewrite (bytes_read _ _ B); reflexivity|].
      split; [split; [constructor; [split; [apply key_ok; repeat constructor|apply bytes_json_wf]|constructor]|constructor; [discriminate|constructor]]|].
      split; [left; symmetry; exact Eb|]. intros t'. cbn [read_fields]. unfold archival_field. keys. rewrite read_bytes_json. reflexivity. }
  assert (Ha : exists ms, attrs = map renders ms /\ good ms /\
    forall t b, read_fields archival_field ms (mkar t b [] None) = Some (mkar t b (map (option_map fresh) (ar_attrs r)) None)).
  { destruct At as [[-> ->]|(O & y & (l & L & ->) & ->)].
    - exists []. split; [reflexivity|]. split; [split; constructor|reflexivity].
    - exists [(str "Attributes", JArr (map (fun a => bytes_json (option_map vis a)) (ar_attrs r)))].
      split; [rewrite (slots_read _ _ L); unfold renders; cbn [map fst snd]; rewrite render_arr, map_map; reflexivity|].
      split; [split; [constructor; [split; [apply key_ok; repeat constructor|apply attrs_json_wf]|constructor]|constructor; [|constructor]]|].
      + cbn [snd depth]. apply (N.succ_le_mono _ 0). generalize (ar_attrs r). clear. intros l.
        induction l as [|a l IH]; [reflexivity|]. cbn [map fold_right]. apply N.max_lub; [|exact IH]. destruct (option_map vis a); reflexivity.
      + intros t' b. cbn [read_fields]. unfold archival_field. keys. unfold read_attrs. rewrite read_all_json. reflexivity. }
  assert (Hm : exists ms md, meta = map renders ms /\ good ms /\
    (forall t b l, read_fields archival_field ms (mkar t b l None) = Some (mkar t b l md)) /\
    match ar_meta r, md with None, None => True | Some m, Some m' => metadata_as m m' | _, _ => False end).
  { destruct Mt as [[-> ->]|(O & y & (md & Em & M) & ->)].
    - exists [], None. split; [reflexivity|]. split; [split; constructor|]. split; [reflexivity|exact I].
    - destruct (metadata_read _ _ _ M (Nu md Em)) as (j & md' & -> & W & D & R & A). exists [(str "Metadata", j)], (Some md').
      split; [reflexivity|]. split; [split; [constructor; [split; [apply key_ok; repeat constructor|exact W]|constructor]|constructor; [exact D|constructor]]|].
      split; [|rewrite Em; exact A]. intros t' b l. cbn [read_fields]. unfold archival_field. keys. cbn [ar_meta]. rewrite R. reflexivity. }
  destruct Hr as (m1 & b & -> & [W1 D1] & Eb & R1). destruct Ha as (m2 & -> & [W2 D2] & R2). destruct Hm as (m3 & md & -> & [W3 D3] & R3 & A).
  set (l := (str "Timestamp", JStr s) :: m1 ++ m2 ++ m3).
  assert (E : object ([member "Timestamp" (in_quotes s)] ++ map renders m1 ++ map renders m2 ++ map renders m3) = render (JObj l)).
  { rewrite render_obj. unfold l. cbn [map]. rewrite !map_app. reflexivity. }
  rewrite E. exists (mkar (ar_time r) b (map (option_map fresh) (ar_attrs r)) md). split.
  - unfold unmarshal. rewrite parse_render.
    + unfold l. cbn [read_fields]. change (unquote (str "Timestamp")) with (str "Timestamp"). unfold archival_field at 1. keys. rewrite P. cbn [option_map].
      unfold zero_archival. cbn [ar_raw ar_attrs ar_meta]. rewrite (fields_app _ _ _ _ _ (R1 _)), (fields_app _ _ _ _ _ (R2 _ _)), R3. reflexivity.
    + constructor. constructor; [split; [apply key_ok; repeat constructor|constructor; exact S]|]. apply Forall_app. split; [exact W1|]. apply Forall_app. split; assumption.
    + assert (F : Forall (fun kv : bytes * json => depth (snd kv) <= 1)%N l).
      { constructor; [discriminate|]. apply Forall_app. split; [exact D1|]. apply Forall_app. split; assumption. }
      clear -F. cbn [depth]. apply (N.le_trans _ 2); [|discriminate]. apply (N.succ_le_mono _ 1). induction F as [|m ms H F IH]; [discriminate|].
      cbn [map fold_right]. apply N.max_lub; assumption.
  - split; [reflexivity|]. split; [exact Eb|]. split; [|exact A]. cbn [ar_attrs]. rewrite map_map. apply map_ext. intros [a|]; reflexivity.
Qed.

(** * Events *)
Lemma sockid_read o x : sockid_text o x -> (forall k, o = Some k -> (sid_sport k < 65536)%N /\ (sid_dport k < 65536)%N /\ (sid_if k < 4294967296)%N /\ int64 (sid_cookie k)) ->
  exists j o', x = render j /\ wf j /\ (depth j <= 1)%N /\ read_sockid j None = Some o' /\
    match o, o' with None, None => True | Some a, Some a' => sockid_as a a' | _, _ => False end.
Proof.
  destruct o as [id|]; cbn [sockid_text].
  - intros (sp & dp & s & d & i & k & H1 & H2 & H3 & H4 & H5 & H6 & ->) B. destruct (B id eq_refl) as (B1 & B2 & B3 & B4).
    apply integer_read_N in H1 as ->. apply integer_read_N in H2 as ->. apply integer_read_N in H5 as ->. apply integer_read in H6 as ->.
    destruct (string_read _ _ H3) as (y & -> & Y & R). destruct (string_read _ _ H4) as (y' & -> & Y' & R').
    exists (JObj [(str "SPort", JNum (dec (sid_sport id))); (str "DPort", JNum (dec (sid_dport id))); (str "SrcIP", JStr y); (str "DstIP", JStr y');
                  (str "Interface", JNum (dec (sid_if id))); (str "Cookie", JNum (decZ (sid_cookie id)))]),
      (Some (mksockid (sid_sport id) (sid_dport id) (unquote y) (unquote y') (sid_if id) (sid_cookie id))).
    split; [rewrite render_obj; reflexivity|]. split; [|split; [discriminate|split]].
    + constructor. repeat (apply Forall_cons; [split; [apply key_ok; repeat constructor|cbn [snd]; constructor; first [apply dec_num|apply decZ_ok|exact Y|exact Y']]|]). apply Forall_nil.
    + cbn [read_sockid read_fields].
      do 6 (unfold sockid_field at 1; keys; rewrite ?read_uint_dec by lia; cbn [read_string read_int option_map sid_sport sid_dport sid_src sid_dst sid_if sid_cookie zero_sockid];
        unfold min_int64, max_int64; rewrite ?parse_int_decZ by exact B4; cbn [option_map]).
      reflexivity.
    + repeat split; assumption.
  - intros -> _. exists JNull, None. split; [reflexivity|]. split; [constructor|]. split; [discriminate|]. split; [reflexivity|exact I].
Qed.
Lemma event_read zone e x : event_line_text zone e x -> event_numbers e -> exists e', unmarshal_event x = Ret e' /\ event_as e e'.
Proof.
  intros (n & t & u & id & N & T & U & D & ->) [Ie Ii]. apply integer_read in N as ->. destruct (time_read _ _ _ T) as (s & Es & ->).
  destruct (time_ok zone _ s Es) as [S P]. destruct (string_read _ _ U) as (y & -> & Y & R). destruct (sockid_read _ _ D Ii) as (j & o' & -> & W & Dp & Rd & A).
  exists (mkfe (fe_event e) (fe_time e) (unquote y) o'). split; [|repeat split; assumption].
  assert (E : object [member "Event" (decZ (fe_event e)); member "Timestamp" (in_quotes s); member "UUID" (in_quotes y); member "ID" (render j)] =
    render (JObj [(str "Event", JNum (decZ (fe_event e))); (str "Timestamp", JStr s); (str "UUID", JStr y); (str "ID", j)])) by (rewrite render_obj; reflexivity).
  rewrite E. unfold unmarshal_event. rewrite parse_render.
  - cbn [read_fields]. unfold event_field at 1. keys. cbn [read_int fe_event zero_event]. unfold min_int64, max_int64.
    rewrite parse_int_decZ by exact Ie. cbn [option_map fe_time fe_uuid fe_id].
    unfold event_field at 1. keys. rewrite P. cbn [option_map fe_event fe_uuid fe_id].
    unfold event_field at 1. keys. cbn [read_string option_map fe_event fe_time fe_id].
    unfold event_field at 1. keys. cbn [fe_event fe_time fe_uuid fe_id zero_event]. rewrite Rd. reflexivity.
  - constructor. repeat (apply Forall_cons; [split; [apply key_ok; repeat constructor|cbn [snd]; first [exact W|constructor; first [apply decZ_ok|exact Y|exact S]]]|]). apply Forall_nil.
  - cbn [depth map fold_right snd]. apply (N.le_trans _ 2); [|discriminate]. apply (N.succ_le_mono _ 1). lia.
Qed.

(** * One text *)
Lemma optional_unique name out (P : bytes -> Prop) l l' : (forall x x', P x -> P x' -> x = x') -> optional name out P l -> optional name out P l' -> l = l'.
Proof. intros U [[O ->]|(O & x & X & ->)] [[O' ->]|(O' & x' & X' & ->)]; try contradiction; [reflexivity|]. rewrite (U x x' X X'). reflexivity. Qed.
Lemma record_unique zone r x x' : ar_meta r = None -> record_text zone r x -> record_text zone r x' -> x = x'.
Proof.
  intros M (t & raw & at' & me & T & R & A & E & ->) (t2 & raw2 & at2 & me2 & T2 & R2 & A2 & E2 & ->).
  assert (raw = raw2) as ->.
  { refine (optional_unique _ _ _ _ _ _ R R2). intros y y' (b & Eb & B) (b' & Eb' & B'). rewrite Eb in Eb'. injection Eb' as <-.
    rewrite (bytes_read _ _ B), (bytes_read _ _ B'). reflexivity. }
  assert (at' = at2) as ->.
  { refine (optional_unique _ _ _ _ _ _ A A2). intros y y' (l & L & ->) (l' & L' & ->). rewrite (slots_read _ _ L), (slots_read _ _ L'). reflexivity. }
  assert (me = me2) as ->.
  { refine (optional_unique _ _ _ _ _ _ E E2). intros y y' (md & K & _). rewrite M in K. discriminate K. }
  rewrite (time_unique _ _ _ _ T T2). reflexivity.
Qed.
Lemma record_exact zone r x : ar_meta r = None -> (marshal zone r = Some x <-> record_text zone r x).
Proof.
  intros M. split; [apply record_written|]. intros R. destruct (marshal zone r) as [y|] eqn:E.
  - f_equal. apply record_written in E. exact (record_unique zone r y x M E R).
  - exfalso. apply marshal_fails in E. apply E. destruct R as (t & _ & _ & _ & T & _). destruct (time_read _ _ _ T) as (s & Es & _).
    split; [apply time_json_some; eauto|]. intros md K. rewrite M in K. discriminate K.
Qed.
