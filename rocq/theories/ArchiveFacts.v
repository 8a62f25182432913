(** JSON lines of records: round trip. *)
From Coq Require Import Strings.String List NArith ZArith Bool Lia.
From Coq Require Import ZifyBool ZifyNat ZifyN.
From Verif Require Import GoBase GoBaseFacts Netlink Base64 Base64Facts GoTime TimeFacts Rfc3339 Rfc3339Facts Json SpecJson JsonFacts JsonPrefix Archive SpecArchive.
Import ListNotations.
Local Open Scope list_scope.

(** ** Times *)
Lemma year_range u : let '(y, _, _) := date u in
  ((0 <= y <= 9999) <-> (-62167219200 * 1000000000 <= u < 253402300800 * 1000000000))%Z.
Proof.
  pose proof (date_spec u) as H. destruct (date u) as [[y m] d]. destruct H as [V E].
  pose proof (yday_bounds y m d V) as B. unfold day_number in E.
  assert (D : (day_of u = u / 86400000000000 + 719162)%Z).
  { unfold day_of, unix, second. rewrite Z.div_div by lia. reflexivity. }
  assert (S0 : (year_start 0 = -366)%Z) by reflexivity. assert (S1 : (year_start 10000 = 3652059)%Z) by reflexivity.
  split; intros H.
  - assert (L0 : (year_start 0 <= year_start y)%Z) by (unfold year_start; clear -H; Z.to_euclidean_division_equations; lia).
    assert (L1 : (year_start y + year_len y <= year_start 10000)%Z) by (apply year_start_mono; lia).
    rewrite D in E. clear D. Z.to_euclidean_division_equations. lia.
  - assert (-366 <= day_of u < 3652059)%Z as K by (rewrite D; clear -H; Z.to_euclidean_division_equations; lia).
    destruct (Z.lt_ge_cases y 0) as [Ly|Ly].
    + pose proof (year_start_mono y 0 Ly). lia.
    + destruct (Z.le_gt_cases y 9999) as [Lz|Lz]; [lia|].
      assert (L1 : (year_start 10000 <= year_start y)%Z) by (unfold year_start; clear -Lz; Z.to_euclidean_division_equations; lia). lia.
Qed.

Lemma time_json_some zone t : writable_time zone t <-> exists s, marshal_time (zone t) t = Some s.
Proof.
  unfold writable_time. pose proof (year_range (t + zone t * minute)) as Y. unfold marshal_time.
  change (60000000000)%Z with minute.
  destruct (date (t + zone t * minute)) as [[y m] d].
  destruct ((0 <=? y)%Z && (y <=? 9999)%Z && (Z.abs (zone t) / 60 <? 24)%Z) eqn:C.
  - split; [eauto|]. intros _. split; [apply Y; lia|]. clear -C. Z.to_euclidean_division_equations. lia.
  - split; [|intros [s E]; discriminate E]. intros [H1 H2]. apply Y in H1. exfalso. clear Y.
    revert C H1 H2. generalize (zone t). intros z C H1 H2. Z.to_euclidean_division_equations. lia.
Qed.

Lemma time_char_simple c : time_char c = true -> simple c = true.
Proof. destruct c; intros H; try reflexivity; discriminate H. Qed.
Lemma plain_simple c : plain c = true -> simple c = true.
Proof. destruct c; intros H; try reflexivity; discriminate H. Qed.

Lemma time_ok zone t s : marshal_time (zone t) t = Some s -> str_ok s /\ forall old, read_time (JStr s) old = Some t.
Proof.
  intros H. split.
  - apply simple_ok. eapply Forall_impl; [|apply (marshal_time_chars _ _ _ H)]. intros c. apply time_char_simple.
  - intros old. cbn [read_time]. unfold unmarshal_time. rewrite (parse_format (zone t) t s H). reflexivity.
Qed.

(** ** Bytes *)
Lemma b64_simple b : Forall (fun c => simple c = true) (b64_encode b).
Proof. eapply Forall_impl; [|apply encode_plain]. intros c. apply plain_simple. Qed.
Lemma read_bytes_json b : read_bytes (bytes_json b) = Some b.
Proof.
  destruct b as [b|]; [|reflexivity]. cbn [bytes_json read_bytes]. rewrite (simple_unquote _ (b64_simple b)), decode_encode. reflexivity.
Qed.
Lemma bytes_json_wf b : wf (bytes_json b) /\ nums_high (bytes_json b).
Proof. destruct b as [b|]; split; try exact I; constructor. apply simple_ok, b64_simple. Qed.
Lemma read_all_json l : read_all_bytes (map (fun a => bytes_json (option_map vis a)) l) = Some (map (option_map fresh) l).
Proof.
  induction l as [|a l IH]; [reflexivity|]. cbn [map read_all_bytes]. rewrite read_bytes_json, IH.
  destruct a as [a|]; reflexivity.
Qed.
Lemma attrs_json_wf l : wf (JArr (map (fun a => bytes_json (option_map vis a)) l)) /\
  nums_high (JArr (map (fun a => bytes_json (option_map vis a)) l)).
Proof.
  split; [constructor; apply Forall_map, Forall_forall; intros a _; apply bytes_json_wf|].
  cbn [nums_high]. induction l as [|a l IH]; [exact I|]. split; [apply bytes_json_wf|exact IH].
Qed.

(** ** Metadata *)
Lemma metadata_ok zone md s : proper_metadata md -> marshal_time (zone (md_start md)) (md_start md) = Some s ->
  exists j, metadata_json zone md = Some j /\ wf j /\ nums_high j /\ read_metadata j None = Some (Some md).
Proof.
  intros [U R] E. unfold metadata_json, time_json. rewrite E. destruct (time_ok zone _ s E) as [S P].
  eexists. split; [reflexivity|]. split; [|split].
  - constructor. repeat constructor; cbn [fst snd]; try (intros r; reflexivity).
    + apply quote_ok.
    + apply decZ_ok.
    + apply decZ_ok.
    + exact S.
  - split; [exact I|]. split; [apply decZ_high|]. split; exact I.
  - cbn [read_metadata read_fields]. change (unquote (str "UUID")) with (str "UUID"). change (unquote (str "Sequence")) with (str "Sequence").
    change (unquote (str "StartTime")) with (str "StartTime").
    unfold metadata_field at 1. change (same_key (str "UUID") (str "UUID")) with true. cbv iota.
    cbn [read_string]. rewrite (unquote_quote _ U).
    unfold metadata_field at 1. change (same_key (str "UUID") (str "Sequence")) with false.
    change (same_key (str "Sequence") (str "Sequence")) with true. cbv iota. cbn [read_int]. unfold min_int64, max_int64. rewrite parse_int_decZ by exact R.
    unfold metadata_field at 1. change (same_key (str "UUID") (str "StartTime")) with false.
    change (same_key (str "Sequence") (str "StartTime")) with false. change (same_key (str "StartTime") (str "StartTime")) with true. cbv iota.
    rewrite P. destruct md. reflexivity.
Qed.

(** ** Records *)
Lemma key_ok k : Forall (fun c => simple c = true) k -> str_ok k. Proof. apply simple_ok. Qed.

Lemma fields_app {A} (f : bytes -> json -> A -> option A) l1 l2 a a' : read_fields f l1 a = Some a' ->
  read_fields f (l1 ++ l2) a = read_fields f l2 a'.
Proof.
  revert a. induction l1 as [|[k v] l1 IH]; intros a H; cbn [read_fields app] in *; [injection H as <-; reflexivity|].
  destruct (f (unquote k) v a) as [b|]; [apply IH, H|discriminate H].
Qed.

Lemma archival_ok zone r : writable zone r -> (forall md, ar_meta r = Some md -> proper_metadata md) ->
  exists j, archival_json zone r = Some j /\ wf j /\ nums_high j /\
    exists l, j = JObj l /\ read_fields archival_field l zero_archival = Some (read_back r).
Proof.
  intros [Wt Wm] P. unfold archival_json, time_json. apply time_json_some in Wt. destruct Wt as [s Es]. rewrite Es.
  destruct (time_ok zone _ s Es) as [S T].
  assert (M : exists ms, match ar_meta r with Some md => match metadata_json zone md with Some m => Some [(str "Metadata", m)] | None => None end
                          | None => Some [] end = Some ms /\
              Forall (fun kv => str_ok (fst kv) /\ wf (snd kv)) ms /\ fold_right (fun kv p => nums_high (snd kv) /\ p) True ms /\
              forall t b l, read_fields archival_field ms (mkar t b l None) = Some (mkar t b l (ar_meta r))).
  { destruct (ar_meta r) as [md|]; [|exists []; repeat split; constructor].
    destruct (proj1 (time_json_some zone _) (Wm md eq_refl)) as [s' Es'].
    destruct (metadata_ok zone md s' (P md eq_refl) Es') as (j & -> & W & N & R). eexists. split; [reflexivity|].
    split; [constructor; [split; [apply key_ok; repeat constructor|exact W]|constructor]|]. split; [split; [exact N|exact I]|].
    intros t b l. cbn [read_fields]. change (unquote (str "Metadata")) with (str "Metadata"). unfold archival_field.
    change (same_key (str "Timestamp") (str "Metadata")) with false. change (same_key (str "RawIDM") (str "Metadata")) with false.
    change (same_key (str "Attributes") (str "Metadata")) with false. change (same_key (str "Metadata") (str "Metadata")) with true.
    cbv iota. cbn [ar_meta]. rewrite R. reflexivity. }
  destruct M as (ms & -> & Wms & Nms & Rms).
  set (raw := match ar_raw r with Some (c :: b) => [(str "RawIDM", bytes_json (Some (c :: b)))] | _ => [] end).
  set (at' := match ar_attrs r with [] => [] | l => [(str "Attributes", JArr (map (fun a => bytes_json (option_map vis a)) l))] end).
  assert (Wraw : Forall (fun kv => str_ok (fst kv) /\ wf (snd kv)) raw /\ fold_right (fun kv p => nums_high (snd kv) /\ p) True raw /\
     forall t, read_fields archival_field raw (mkar t None [] None) =
       Some (mkar t (match ar_raw r with Some [] => None | b => b end) [] None)).
  { unfold raw. destruct (ar_raw r) as [[|c b]|]; [repeat split; constructor| |repeat split; constructor].
    split; [constructor; [split; [apply key_ok; repeat constructor|apply bytes_json_wf]|constructor]|].
    split; [split; [apply bytes_json_wf|exact I]|].
    intros t. cbn [read_fields]. change (unquote (str "RawIDM")) with (str "RawIDM"). unfold archival_field.
    change (same_key (str "Timestamp") (str "RawIDM")) with false. change (same_key (str "RawIDM") (str "RawIDM")) with true. cbv iota.
    rewrite read_bytes_json. reflexivity. }
  assert (Wat : Forall (fun kv => str_ok (fst kv) /\ wf (snd kv)) at' /\ fold_right (fun kv p => nums_high (snd kv) /\ p) True at' /\
     forall t b, read_fields archival_field at' (mkar t b [] None) = Some (mkar t b (map (option_map fresh) (ar_attrs r)) None)).
  { unfold at'. destruct (ar_attrs r) as [|a l]; [repeat split; constructor|].
    split; [constructor; [split; [apply key_ok; repeat constructor|apply attrs_json_wf]|constructor]|].
    split; [split; [apply attrs_json_wf|exact I]|].
    intros t b. cbn [read_fields]. change (unquote (str "Attributes")) with (str "Attributes"). unfold archival_field.
    change (same_key (str "Timestamp") (str "Attributes")) with false. change (same_key (str "RawIDM") (str "Attributes")) with false.
    change (same_key (str "Attributes") (str "Attributes")) with true. cbv iota.
    unfold read_attrs. rewrite read_all_json. reflexivity. }
  destruct Wraw as (W1 & N1 & R1). destruct Wat as (W2 & N2 & R2).
  eexists. split; [reflexivity|]. split; [|split].
  - constructor. constructor; [split; [apply key_ok; repeat constructor|constructor; exact S]|].
    apply Forall_app. split; [exact W1|]. apply Forall_app. split; [exact W2|exact Wms].
  - assert (A : forall l1 l2 : list (bytes * json), fold_right (fun kv p => nums_high (snd kv) /\ p) True l1 ->
       fold_right (fun kv p => nums_high (snd kv) /\ p) True l2 -> fold_right (fun kv p => nums_high (snd kv) /\ p) True (l1 ++ l2)).
    { intros l1 l2 H1 H2. induction l1 as [|x l1 IH]; [exact H2|]. destruct H1 as [H0 H1]. split; [exact H0|apply IH, H1]. }
    cbn [nums_high]. apply A; [split; exact I|]. apply A; [exact N1|]. apply A; [exact N2|exact Nms].
  - eexists. split; [reflexivity|]. erewrite fields_app.
    2:{ cbn [read_fields]. change (unquote (str "Timestamp")) with (str "Timestamp"). unfold archival_field.
        change (same_key (str "Timestamp") (str "Timestamp")) with true. cbv iota. rewrite T. reflexivity. }
    unfold zero_archival. cbn [ar_raw ar_attrs ar_meta].
    rewrite (fields_app _ _ _ _ _ (R1 _)), (fields_app _ _ _ _ _ (R2 _ _)), Rms. reflexivity.
Qed.

Lemma archival_depth zone r j : archival_json zone r = Some j -> (depth j <= max_depth)%N.
Proof.
  unfold archival_json, metadata_json, time_json. destruct (marshal_time (zone (ar_time r)) (ar_time r)) as [t|]; [|discriminate].
  set (raw := match ar_raw r with Some (c :: b) => _ | _ => [] end). set (at' := match ar_attrs r with [] => [] | _ => _ end).
  assert (A : Forall (fun m => depth (snd m) <= 1)%N (raw ++ at')).
  { apply Forall_app. split; [unfold raw; destruct (ar_raw r) as [[|c b]|]; repeat constructor; discriminate|].
    unfold at'. destruct (ar_attrs r) as [|a l]; repeat constructor. cbn [snd depth]. apply (N.succ_le_mono _ 0). generalize (a :: l). clear. intros l.
    induction l as [|a l IH]; [reflexivity|]. cbn [map fold_right]. apply N.max_lub; [|exact IH]. destruct (option_map vis a); reflexivity. }
  assert (D : forall ms, Forall (fun m : bytes * json => depth (snd m) <= 1)%N ms -> (depth (JObj ms) <= max_depth)%N).
  { clear. intros ms F. cbn [depth]. apply (N.le_trans _ 2); [|discriminate]. apply (N.succ_le_mono _ 1). induction F as [|m ms H F IH]; [discriminate|].
    cbn [map fold_right]. apply N.max_lub; assumption. }
  destruct (ar_meta r) as [md|]; [destruct (marshal_time (zone (md_start md)) (md_start md)) as [s|]; [|discriminate]|]; intros [= <-]; apply D; rewrite app_assoc;
    (constructor; [discriminate|]); apply Forall_app; (split; [exact A|]); repeat constructor. discriminate.
Qed.
Lemma no_control_newline b : no_control b -> ~ In x0a b /\ ~ In x0d b.
Proof.
  intros H. split; intros K; unfold no_control in H; rewrite Forall_forall in H; apply H in K; cbv beta in K; revert K; apply N.lt_nge; reflexivity.
Qed.

Lemma round_trip zone r : writable zone r -> (forall md, ar_meta r = Some md -> proper_metadata md) ->
  exists b, marshal zone r = Some b /\ unmarshal b = Ret (read_back r) /\ ~ In x0a b /\ ~ In x0d b.
Proof.
  intros W P. destruct (archival_ok zone r W P) as (j & E & Wf & N & l & -> & R).
  exists (render (JObj l)). unfold marshal. rewrite E. split; [reflexivity|]. split.
  - unfold unmarshal. rewrite (parse_render _ Wf (archival_depth _ _ _ E)), R. reflexivity.
  - apply no_control_newline, render_high; assumption.
Qed.

(** The beginning of a line is no record. *)
Lemma cut_line zone r p q : writable zone r -> (forall md, ar_meta r = Some md -> proper_metadata md) ->
  json_line zone r = p ++ q -> q <> [] -> unmarshal p = Fail ErrJSON.
Proof.
  intros W P E N. destruct (archival_ok zone r W P) as (j & Ej & Wf & _ & l & -> & _).
  unfold json_line, marshal in E. rewrite Ej in E. unfold unmarshal. rewrite (parse_cut l p q Wf E N). reflexivity.
Qed.

Lemma marshal_fails zone r : marshal zone r = None <-> ~ writable zone r.
Proof.
  unfold marshal, archival_json, metadata_json, time_json, writable. split.
  - intros H [W1 W2]. apply time_json_some in W1. destruct W1 as [s Es]. rewrite Es in H.
    destruct (ar_meta r) as [md|]; [|discriminate H]. specialize (W2 md eq_refl). apply time_json_some in W2. destruct W2 as [s2 Es2].
    rewrite Es2 in H. discriminate H.
  - intros H. destruct (marshal_time (zone (ar_time r)) (ar_time r)) as [s|] eqn:Es; [|reflexivity].
    destruct (ar_meta r) as [md|].
    + destruct (marshal_time (zone (md_start md)) (md_start md)) as [s2|] eqn:Es2; [|reflexivity].
      exfalso. apply H. split; [apply time_json_some; eauto|]. intros md' E. injection E as <-. apply time_json_some; eauto.
    + exfalso. apply H. split; [apply time_json_some; eauto|]. intros md' E. discriminate E.
Qed.

Lemma read_back_again r : read_back (read_back r) = read_back r.
Proof.
  unfold read_back. cbn [ar_time ar_raw ar_attrs ar_meta]. f_equal.
  - destruct (ar_raw r) as [[|b l]|]; reflexivity.
  - rewrite map_map. apply map_ext. intros [s|]; reflexivity.
Qed.
Lemma marshal_injective zone r1 r2 b : marshal zone r1 = Some b -> marshal zone r2 = Some b ->
  (forall r md, r = r1 \/ r = r2 -> ar_meta r = Some md -> proper_metadata md) -> read_back r1 = read_back r2.
Proof.
  intros M1 M2 P.
  assert (G : forall r, r = r1 \/ r = r2 -> marshal zone r = Some b -> unmarshal b = Ret (read_back r)).
  { intros r Hr M. destruct (archival_json zone r) as [j|] eqn:J; [|unfold marshal in M; rewrite J in M; discriminate M].
    assert (W : writable zone r).
    { unfold archival_json, metadata_json, time_json in J. split.
      - apply time_json_some. destruct (marshal_time (zone (ar_time r)) (ar_time r)) as [s|]; [eauto|discriminate J].
      - intros md E. apply time_json_some. rewrite E in J. destruct (marshal_time (zone (ar_time r)) (ar_time r)); [|discriminate J].
        destruct (marshal_time (zone (md_start md)) (md_start md)) as [s|]; [eauto|discriminate J]. }
    destruct (round_trip zone r W (fun md => P r md Hr)) as (b' & M' & U & _). rewrite M in M'. injection M' as <-. exact U. }
  pose proof (G r1 (or_introl eq_refl) M1) as G1. rewrite (G r2 (or_intror eq_refl) M2) in G1. injection G1 as E1 E2 E3 E4.
  unfold read_back. congruence.
Qed.

(** json.Unmarshal returns a record or an error other than io.EOF. *)
Lemma unmarshal_proper l : (exists r, unmarshal l = Ret r) \/ (exists e, unmarshal l = Fail e /\ e <> ErrEOF).
Proof.
  unfold unmarshal. destruct (parse l) as [[ |b|s|s|a|a]|]; try (right; exists ErrJSON; split; [reflexivity|discriminate]).
  - left. eauto.
  - destruct (read_fields archival_field a zero_archival) as [r|]; [left; eauto|right; exists ErrJSON; split; [reflexivity|discriminate]].
Qed.
