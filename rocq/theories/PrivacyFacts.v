(** The saver does the same, up to addresses, with messages that are alike. *)
From stdpp Require Import gmap.
From Coq Require Import NArith ZArith Lia ZifyN ZifyNat ZifyBool.
From Verif Require Import GoBase GoBaseFacts GoTime NetIP Inetdiag Netlink SpecNetlink SpecCompare RecordFacts CompareFacts
  Cache SpecCache CacheFacts Saver SpecSaver SpecSystem SpecPrivacy.

Section Veil.
Variable anon : bytes -> bytes.
Hypothesis Hlen : forall x, length (anon x) = length x.
Notation vh := (veiled_header anon).
Notation vr := (veiled_record anon).
Notation vc := (veiled_cell anon).

Lemma hidden_parts raw h : hidden_header anon raw = Some h ->
  72 <= length raw /\ length h = length raw /\ firstn 8 h = firstn 8 raw /\ skipn 40 h = skipn 40 raw.
Proof.
  unfold hidden_header. destruct (Nat.ltb_spec (length raw) 72) as [L|L]; [discriminate|]. intros H.
  assert (A : forall o n, o + n <= 72 -> length (at_ o n raw) = n) by (intros o n K; unfold at_; rewrite firstn_length, skipn_length; lia).
  destruct (N.eqb (hdr_family raw) 10) eqn:E.
  - injection H as <-. split; [lia|]. split; [rewrite !app_length, !Hlen, !A, skipn_length by lia; lia|]. split.
    + rewrite firstn_app, A by lia. cbn [Nat.sub]. rewrite firstn_O, app_nil_r, firstn_all2 by (rewrite A; lia). reflexivity.
    + rewrite !app_assoc, skipn_app, skipn_all2 by (rewrite !app_length, !Hlen, !A by lia; lia).
      rewrite !app_length, !Hlen, !A by lia. reflexivity.
  - destruct (N.eqb (hdr_family raw) 2) eqn:E2; [|discriminate H]. injection H as <-.
    split; [lia|]. split; [rewrite !app_length, !Hlen, !A, skipn_length by lia; lia|]. split.
    + rewrite firstn_app, A by lia. cbn [Nat.sub]. rewrite firstn_O, app_nil_r, firstn_all2 by (rewrite A; lia). reflexivity.
    + rewrite !app_assoc, skipn_app, skipn_all2 by (rewrite !app_length, !Hlen, !A by lia; lia).
      rewrite !app_length, !Hlen, !A by lia. cbn [Nat.add Nat.sub app]. by rewrite drop_drop.
Qed.
Lemma veiled_parts raw : length (vh raw) = length raw /\ firstn 8 (vh raw) = firstn 8 raw /\ skipn 40 (vh raw) = skipn 40 raw.
Proof.
  unfold veiled_header. destruct (hidden_header anon raw) as [h|] eqn:E; [|auto]. apply hidden_parts in E. tauto.
Qed.
Lemma family_first raw raw' : firstn 8 raw = firstn 8 raw' -> hdr_family raw = hdr_family raw'.
Proof. intros H. unfold hdr_family. rewrite <- (at_firstn 0 1 8 raw), <- (at_firstn 0 1 8 raw'), H by lia. reflexivity. Qed.
Lemma hidden_none_iff raw raw' : length raw = length raw' -> hdr_family raw = hdr_family raw' ->
  hidden_header anon raw = None -> hidden_header anon raw' = None.
Proof.
  intros L F. unfold hidden_header. rewrite L, F. destruct (length raw' <? 72); [done|]. destruct (N.eqb _ 10); [done|]. by destruct (N.eqb _ 2).
Qed.
Lemma veiled_same raw raw' : vh raw = vh raw' ->
  length raw = length raw' /\ firstn 8 raw = firstn 8 raw' /\ skipn 40 raw = skipn 40 raw' /\ hidden_header anon raw = hidden_header anon raw'.
Proof.
  intros H. destruct (veiled_parts raw) as (A1 & A2 & A3), (veiled_parts raw') as (B1 & B2 & B3). rewrite H in A1, A2, A3.
  assert (L : length raw = length raw') by congruence. assert (F : firstn 8 raw = firstn 8 raw') by congruence.
  assert (K : skipn 40 raw = skipn 40 raw') by congruence. split; [exact L|]. split; [exact F|]. split; [exact K|].
  unfold veiled_header in H. pose proof (family_first _ _ F) as Fa.
  destruct (hidden_header anon raw) as [h|] eqn:E, (hidden_header anon raw') as [h'|] eqn:E'; [congruence| | |reflexivity].
  - apply (hidden_none_iff raw' raw) in E'; [congruence | lia | congruence].
  - apply (hidden_none_iff raw raw') in E; [congruence | lia | congruence].
Qed.
Lemma at_skipn o n k (l : bytes) : k <= o -> at_ o n l = at_ (o - k) n (skipn k l).
Proof. intros H. unfold at_. rewrite drop_drop. do 2 f_equal. lia. Qed.
Lemma veiled_fields raw raw' : vh raw = vh raw' ->
  hdr_state raw = hdr_state raw' /\ hdr_sport raw = hdr_sport raw' /\ hdr_dport raw = hdr_dport raw' /\ hdr_if raw = hdr_if raw' /\ hdr_cookie raw = hdr_cookie raw'.
Proof.
  intros H. apply veiled_same in H as (_ & F & K & _).
  assert (A : forall o n, o + n <= 8 -> at_ o n raw = at_ o n raw') by (intros o n L; rewrite <- (at_firstn o n 8 raw), <- (at_firstn o n 8 raw'), F by lia; reflexivity).
  assert (B : forall o n, 40 <= o -> at_ o n raw = at_ o n raw') by (intros o n L; rewrite (at_skipn o n 40 raw), (at_skipn o n 40 raw'), K by lia; reflexivity).
  unfold hdr_state, hdr_sport, hdr_dport, hdr_if, hdr_cookie. rewrite !A, !B by lia. auto.
Qed.

Lemma parse_same r r' : vr r = vr r' ->
  (exists m m', parse_idm (ar_raw r) = Ret m /\ parse_idm (ar_raw r') = Ret m' /\ idiag_state m = idiag_state m' /\
     cookie (idiag_id m) = cookie (idiag_id m') /\ veiled_id (get_sockid (idiag_id m)) = veiled_id (get_sockid (idiag_id m'))) \/
  (parse_idm (ar_raw r) = Fail ErrParseFailed /\ parse_idm (ar_raw r') = Fail ErrParseFailed).
Proof.
  intros H. injection H as _ H _ _.
  destruct (ar_raw r) as [a|], (ar_raw r') as [b|]; try discriminate H; [|right; by split].
  injection H as H. pose proof (veiled_same _ _ H) as (L & _ & _ & _). pose proof (veiled_fields _ _ H) as (F1 & F2 & F3 & F4 & F5).
  destruct (le_lt_dec 72 (length a)) as [K|K].
  - left. exists (load_idm a), (load_idm b). split; [by apply parse_idm_ok|]. split; [apply parse_idm_ok; lia|].
    split; [exact F1|]. split; [exact F5|]. unfold veiled_id, get_sockid. cbn [sid_sport sid_dport sid_if sid_cookie].
    destruct (load_idm_fields a) as (_&_&_&_&A1&A2&_&_&A3&A4&_), (load_idm_fields b) as (_&_&_&_&B1&B2&_&_&B3&B4&_).
    rewrite A1, A2, A3, A4, B1, B2, B3, B4, F2, F3, F4, F5. reflexivity.
  - right. split; apply parse_idm_short; cbn [raw_bytes]; lia.
Qed.
Lemma vr_attrs r r' : vr r = vr r' -> ar_attrs r = ar_attrs r'. Proof. by intros [= _ _ ? _]. Qed.
Lemma vr_time r r' : vr r = vr r' -> ar_time r = ar_time r'. Proof. by intros [= ? _ _ _]. Qed.
Lemma cookie_same r r' : vr r = vr r' -> record_cookie r = record_cookie r'.
Proof.
  intros H. unfold record_cookie. destruct (parse_same r r' H) as [(m & m' & -> & -> & _ & E & _)|(-> & ->)]; cbn [bind]; [by rewrite E | done].
Qed.
Lemma compare_same a a' o o' : vr a = vr a' -> vr o = vr o' -> compare a (Some o) = compare a' (Some o').
Proof.
  intros H H'. unfold compare. rewrite <- (vr_attrs _ _ H), <- (vr_attrs _ _ H').
  destruct (parse_same o o' H') as [(m & m' & -> & -> & E & _)|(-> & ->)]; cbn [bind]; [|done].
  destruct (parse_same a a' H) as [(n & n' & -> & -> & E' & _)|(-> & ->)]; cbn [bind]; [|done]. by rewrite E, E'.
Qed.
Lemma stats_same r r' : vr r = vr r' -> get_stats r = get_stats r'.
Proof. intros H. unfold get_stats. by rewrite (vr_attrs _ _ H). Qed.
Lemma diag_same r r' : vr r = vr r' -> has_diag_info r = has_diag_info r'.
Proof. intros H. unfold has_diag_info. by rewrite (vr_attrs _ _ H). Qed.

(** ** The state of the saver, veiled *)
Definition vconn (c : conn) : conn := mkconn (veiled_id (cn_id c)) (cn_start c) (cn_seq c) (cn_exp c) (cn_writer c).
Definition vcache (c : cache) : cache := mkcache (vc <$> cur c) (vc <$> prev c) (cycles c).
Definition vs (s : saver) : saver :=
  mksaver (vcache (s_cache s)) (vconn <$> s_conns s) (s_closing s) (s_ctotals s) (s_stats s) (s_loop s) (s_pos s) (veiled anon <$> s_log s) (s_dead s).
Notation "s ~ t" := (vs s = vs t) (at level 70).

Ltac fields H :=
  let e1 := fresh "Ec" in let e2 := fresh "En" in let e3 := fresh "El" in
  injection H as e1 e2 ? ? ? ? ? e3 ?.
Lemma vs_emit a a' s s' : s ~ s' -> veiled anon a = veiled anon a' -> emit a s ~ emit a' s'.
Proof. intros [= H1 H2 H3 H4 H5 H6 H7 H8 H9 H10 H11] E. unfold vs, emit, vcache in *. cbn. rewrite !fmap_app. cbn. congruence. Qed.
Lemma vs_pos p s s' : s ~ s' -> with_pos p s ~ with_pos p s'.
Proof. intros [= H1 H2 H3 H4 H5 H6 H7 H8 H9 H10 H11]. unfold vs, with_pos, vcache in *. cbn. congruence. Qed.
Lemma vs_stats c s s' : s ~ s' -> with_stats c s ~ with_stats c s'.
Proof. intros [= H1 H2 H3 H4 H5 H6 H7 H8 H9 H10 H11]. unfold vs, with_stats, vcache in *. cbn. congruence. Qed.
Lemma vs_loop c s s' : s ~ s' -> with_loop c s ~ with_loop c s'.
Proof. intros [= H1 H2 H3 H4 H5 H6 H7 H8 H9 H10 H11]. unfold vs, with_loop, vcache in *. cbn. congruence. Qed.
Lemma vs_closing m t s s' : s ~ s' -> with_closing m t s ~ with_closing m t s'.
Proof. intros [= H1 H2 H3 H4 H5 H6 H7 H8 H9 H10 H11]. unfold vs, with_closing, vcache in *. cbn. congruence. Qed.
Lemma vs_conns m m' s s' : s ~ s' -> vconn <$> m = vconn <$> m' -> with_conns m s ~ with_conns m' s'.
Proof. intros [= H1 H2 H3 H4 H5 H6 H7 H8 H9 H10 H11] E. unfold vs, with_conns, vcache in *. cbn. congruence. Qed.
Lemma vs_cache c c' s s' : s ~ s' -> vcache c = vcache c' -> with_cache c s ~ with_cache c' s'.
Proof. intros [= H1 H2 H3 H4 H5 H6 H7 H8 H9 H10 H11] E. unfold vs, with_cache in *. cbn. unfold vcache in *. congruence. Qed.
Lemma vs_crash s s' : s ~ s' -> crash s ~ crash s'.
Proof. intros [= H1 H2 H3 H4 H5 H6 H7 H8 H9 H10 H11]. unfold vs, crash, vcache in *. cbn. congruence. Qed.
Lemma vs_eq s s' : s ~ s' -> vcache (s_cache s) = vcache (s_cache s') /\ vconn <$> s_conns s = vconn <$> s_conns s' /\ s_closing s = s_closing s' /\
  s_ctotals s = s_ctotals s' /\ s_stats s = s_stats s' /\ s_loop s = s_loop s' /\ s_pos s = s_pos s' /\ veiled anon <$> s_log s = veiled anon <$> s_log s' /\ s_dead s = s_dead s'.
Proof. intros [= H1 H2 H3 H4 H5 H6 H7 H8 H9 H10 H11]. unfold vcache. repeat split; congruence. Qed.
Lemma set_conn_same k c c' s s' : s ~ s' -> vconn c = vconn c' -> set_conn k c s ~ set_conn k c' s'.
Proof.
  intros H E. unfold set_conn. apply vs_conns; [exact H|]. rewrite !fmap_insert, E. f_equal. apply vs_eq in H. apply H.
Qed.

Section Runs.
Variables (w : world) (cf : config).
Lemma now_same s s' : s ~ s' -> (now w s).1 = (now w s').1 /\ (now w s).2 ~ (now w s').2.
Proof.
  intros H. pose proof (vs_eq _ _ H) as (_&_&_&_&_&_&P&_). unfold now. rewrite P. cbn [fst snd]. split; [done|].
  apply vs_emit; [|done]. by apply vs_pos.
Qed.
Lemma vconn_eq c c' : vconn c = vconn c' -> cookie_uint64 (cn_id c) = cookie_uint64 (cn_id c') /\ cn_start c = cn_start c' /\ cn_seq c = cn_seq c' /\
  cn_exp c = cn_exp c' /\ cn_writer c = cn_writer c' /\ veiled_id (cn_id c) = veiled_id (cn_id c').
Proof.
  unfold vconn. intros H. assert (V : veiled_id (cn_id c) = veiled_id (cn_id c')) by (exact (f_equal cn_id H)).
  injection H as H1 H2 H3 H4 H5 H6 H7 H8. unfold cookie_uint64. rewrite H4. repeat split; assumption.
Qed.
Lemma rotate_same c c' s s' : vconn c = vconn c' -> s ~ s' ->
  (rotate w c s).1 ~ (rotate w c' s').1 /\ option_map vconn (rotate w c s).2 = option_map vconn (rotate w c' s').2.
Proof.
  intros Hc H. destruct (vconn_eq _ _ Hc) as (E1 & E2 & E3 & E4 & E5 & E6). unfold rotate. rewrite <- E1, <- E2, <- E3, <- E4.
  set (d := if (0 <? cn_seq c)%nat then _ else _). set (d' := if (0 <? cn_seq c)%nat then let '(t, s0) := now w s' in _ else _).
  assert (D : d.1 = d'.1 /\ d.2 ~ d'.2).
  { subst d d'. destruct (0 <? cn_seq c)%nat; [|by split]. destruct (now_same _ _ H) as [N1 N2].
    destruct (now w s), (now w s'). cbn [fst snd] in *. subst. by split. }
  destruct d as [dp s1], d' as [dp' s1']. cbn [fst snd] in D. destruct D as [<- D]. clear H s s'. rename s1 into s, s1' into s'.
  pose proof (vs_eq _ _ D) as (_&_&_&_&_&_&P&_). rewrite <- P. set (ok := mkdir_ok w _). clearbody ok.
  set (t := emit (AMkdir ok dp) (with_pos _ s)). set (t' := emit (AMkdir ok dp) (with_pos _ s')).
  assert (T : t ~ t') by (apply vs_emit; [by apply vs_pos | done]). pose proof (vs_eq _ _ T) as (_&_&_&_&_&_&Q&_). clearbody t t'.
  destruct ok; cbn [negb]; [|by split]. rewrite <- Q. destruct (create_ok w _); cbn [negb fst snd option_map].
  - split; [|unfold vconn; cbn; by rewrite E6]. do 3 (apply vs_emit; [|done]). by apply vs_pos.
  - split; [|done]. apply vs_emit; [by apply vs_pos | done].
Qed.
Lemma lookup_same (m m' : gmap N conn) k : vconn <$> m = vconn <$> m' -> option_map vconn (m !! k) = option_map vconn (m' !! k).
Proof. intros H. pose proof (f_equal (fun x => x !! k) H) as E. cbn in E. rewrite !lookup_fmap in E. exact E. Qed.
Lemma queue_same c c' s s' : vc c = vc c' -> s ~ s' -> queue w cf c s ~ queue w cf c' s'.
Proof.
  intros Hc H. assert (Hr : vr (c_ar c) = vr (c_ar c')) by (unfold veiled_cell in Hc; congruence). unfold queue.
  destruct (parse_same _ _ Hr) as [(m & m' & -> & -> & _ & K & I)|(-> & ->)]; [|by apply vs_crash]. rewrite <- K.
  destruct (N.eqb (cookie (idiag_id m)) 0); [exact H|]. destruct (nmarsh cf <? 1)%nat; [exact H|].
  set (k := cookie (idiag_id m)). set (q := N.to_nat _). rewrite <- (vr_time _ _ Hr).
  set (d := match s_conns s !! k with Some _ => _ | None => _ end). set (d' := match s_conns s' !! k with Some _ => _ | None => _ end).
  assert (D : vconn d.1 = vconn d'.1 /\ d.2 ~ d'.2).
  { subst d d'. pose proof (vs_eq _ _ H) as (_&C&_). pose proof (lookup_same _ _ k C) as L.
    destruct (s_conns s !! k) as [x|], (s_conns s' !! k) as [x'|]; try discriminate L; cbn [option_map] in L.
    - apply (inj Some) in L. split; [exact L | exact H].
    - destruct (now_same _ _ H) as [N1 N2]. destruct (now w s) as [t s1], (now w s') as [t' s1']. cbn [fst snd] in *. subst t'.
      assert (V : vconn (mkconn (get_sockid (idiag_id m)) (ar_time (c_ar c)) 0 t None) = vconn (mkconn (get_sockid (idiag_id m')) (ar_time (c_ar c)) 0 t None)).
      { unfold vconn. cbn [cn_id cn_start cn_seq cn_exp cn_writer]. by rewrite I. }
      split; [exact V|]. apply set_conn_same; [|exact V]. apply vs_emit; [exact N2|]. cbn [veiled]. by rewrite I. }
  destruct d as [x s1], d' as [x' s1']. cbn [fst snd] in D. destruct D as [D1 D2]. clear H s s'.
  destruct (now_same _ _ D2) as [N1 N2]. destruct (now w s1) as [t s], (now w s1') as [t' s']. cbn [fst snd] in *. subst t'. clear D2 s1 s1'.
  destruct (vconn_eq _ _ D1) as (E1 & E2 & E3 & E4 & E5 & E6).
  set (d := match cn_writer x with Some wr => _ | None => _ end). set (d' := match cn_writer x' with Some wr => _ | None => _ end).
  assert (D : vconn d.1 = vconn d'.1 /\ d.2 ~ d'.2).
  { subst d d'. rewrite <- E5, <- E4. destruct (cn_writer x) as [wr|]; [|by split]. destruct (cn_exp x <? t)%Z; [|by split]. cbn [fst snd].
    assert (V : vconn (set_writer None x) = vconn (set_writer None x')) by (unfold set_writer, vconn; cbn [cn_id cn_start cn_seq cn_exp cn_writer]; congruence).
    split; [exact V|]. apply set_conn_same; [by apply vs_emit | exact V]. }
  destruct d as [y s1], d' as [y' s1']. cbn [fst snd] in D. destruct D as [D3 D2]. destruct (vconn_eq _ _ D3) as (_ & _ & _ & _ & W & _).
  rewrite <- W. assert (EQ : forall wr, veiled anon (ASend q (Some c) wr) = veiled anon (ASend q (Some c') wr)) by (intros wr; cbn [veiled]; by rewrite Hc).
  destruct (cn_writer y) as [wr|]; [by apply vs_emit|].
  destruct (rotate_same _ _ _ _ D3 D2) as [R1 R2]. destruct (rotate w y s1) as [t1 o], (rotate w y' s1') as [t1' o']. cbn [fst snd] in R1, R2.
  destruct o as [z|], o' as [z'|]; try discriminate R2; [|exact R1]. assert (Z : vconn z = vconn z') by (cbn [option_map] in R2; by apply (inj Some) in R2).
  destruct (vconn_eq _ _ Z) as (_ & _ & _ & _ & W' & _). rewrite <- W'. destruct (cn_writer z) as [wr|].
  - apply vs_emit; [by apply set_conn_same | apply EQ].
  - by apply set_conn_same.
Qed.
Lemma end_conn_same k s s' : s ~ s' -> end_conn w cf k s ~ end_conn w cf k s'.
Proof.
  intros H. unfold end_conn. destruct (now_same _ _ H) as [N1 N2]. destruct (now w s) as [t s1], (now w s') as [t' s1']. cbn [fst snd] in *. subst t'.
  assert (H1 : emit (AClose t k) s1 ~ emit (AClose t k) s1') by (by apply vs_emit).
  destruct (Nat.eqb (nmarsh cf) 0); [by apply vs_crash|].
  pose proof (vs_eq _ _ H1) as (_&C&_). pose proof (lookup_same _ _ k C) as L.
  destruct (s_conns (emit (AClose t k) s1) !! k) as [x|], (s_conns (emit (AClose t k) s1') !! k) as [x'|]; try discriminate L; [|exact H1].
  assert (V : vconn x = vconn x') by (cbn [option_map] in L; by apply (inj Some) in L). destruct (vconn_eq _ _ V) as (_ & _ & _ & _ & W & _).
  rewrite <- W. destruct (cn_writer x) as [wr|]; [|exact H1].
  assert (H2 : emit (ASend (N.to_nat (k mod N.of_nat (nmarsh cf))) None wr) (emit (AClose t k) s1) ~ emit (ASend (N.to_nat (k mod N.of_nat (nmarsh cf))) None wr) (emit (AClose t k) s1')) by (by apply vs_emit).
  apply vs_conns; [exact H2|]. rewrite !fmap_delete. f_equal. apply vs_eq in H2. apply H2.
Qed.
Lemma vc_eq c c' : vc c = vc c' -> vr (c_ar c) = vr (c_ar c'). Proof. unfold veiled_cell. congruence. Qed.
Lemma update_same c c' x x' : vcache c = vcache c' -> vc x = vc x' ->
  vcache (update c x).2 = vcache (update c' x').2 /\
  match (update c x).1, (update c' x').1 with
  | Ret o, Ret o' => option_map vc o = option_map vc o'
  | Fail e, Fail e' => True
  | Panic, Panic | Diverge, Diverge => True
  | _, _ => False
  end.
Proof.
  intros H Hx. unfold update. rewrite <- (cookie_same _ _ (vc_eq _ _ Hx)).
  destruct (record_cookie (c_ar x)) as [k| | |]; try (split; [exact H | done]).
  injection H as H1 H2 H3. pose proof (f_equal (fun z => z !! k) H2) as E. cbn in E. rewrite !lookup_fmap in E.
  destruct (prev c !! k) as [e|], (prev c' !! k) as [e'|]; try discriminate E; cbn [fst snd]; unfold vcache; cbn [cur prev cycles];
    rewrite !fmap_insert, ?fmap_delete; (split; [congruence|]); [exact E | done].
Qed.
Lemma swap_same c c' s s' : vc c = vc c' -> s ~ s' -> swap_and_queue w cf c_ar c s ~ swap_and_queue w cf c_ar c' s'.
Proof.
  intros Hc H. pose proof (vc_eq _ _ Hc) as Hr. unfold swap_and_queue.
  assert (H1 : inc_total s ~ inc_total s').
  { unfold inc_total. pose proof (vs_eq _ _ H) as (_&_&_&_&S&_). rewrite <- S. by apply vs_stats. }
  revert H1. generalize (inc_total s), (inc_total s'). clear H s s'. intros s s' H.
  pose proof (vs_eq _ _ H) as (C&_). destruct (update_same _ _ _ _ C Hc) as [U1 U2].
  destruct (update (s_cache s) c) as [o k], (update (s_cache s') c') as [o' k']. cbn [fst snd] in U1, U2.
  destruct o as [o|e| |], o' as [o'|e'| |]; try contradiction; [|exact H|by apply vs_crash|by apply vs_crash].
  assert (H1 : with_cache k s ~ with_cache k' s') by (by apply vs_cache).
  revert H1. generalize (with_cache k s), (with_cache k' s'). clear H C s s'. intros s s' H.
  pose proof (vs_eq _ _ H) as (_&_&Cl&Ct&S&_).
  assert (EM : forall s s', s ~ s' -> emit ASnapshot s ~ emit ASnapshot s') by (intros; by apply vs_emit).
  destruct o as [o|], o' as [o'|]; try discriminate U2.
  - assert (Vo : vc o = vc o') by (cbn in U2; congruence). apply vc_eq in Vo.
    rewrite <- (diag_same _ _ Vo), <- (diag_same _ _ Hr), <- (stats_same _ _ Vo), <- (compare_same _ _ _ _ Hr Vo).
    destruct (parse_same _ _ Hr) as [(m & m' & -> & -> & _ & K & _)|(-> & ->)]; [|exact H].
    rewrite <- K, <- Cl, <- Ct. set (t := if _ && _ then _ else s). set (t' := if _ && _ then _ else s').
    assert (T : t ~ t') by (subst t t'; destruct (_ && _); [by apply vs_closing | exact H]). clearbody t t'.
    assert (Q : queue w cf c (emit ASnapshot (inc_diff t)) ~ queue w cf c' (emit ASnapshot (inc_diff t'))).
    { apply queue_same; [exact Hc|]. apply EM. unfold inc_diff. pose proof (vs_eq _ _ T) as (_&_&_&_&S'&_). rewrite <- S'. by apply vs_stats. }
    destruct (compare (c_ar c) (Some (c_ar o))) as [[]| | |]; try exact Q; try exact T; by apply vs_crash.
  - apply queue_same; [exact Hc|]. apply EM. unfold inc_new. rewrite <- S. by apply vs_stats.
Qed.

Definition veiled_outcome (o : outcome (option archival)) : outcome (option archival) :=
  match o with Ret (Some r) => Ret (Some (vr r)) | o => o end.
Lemma make_same m m' : alike anon m m' -> (make_archival_record m (excl cf) = Ret None <-> make_archival_record m' (excl cf) = Ret None) ->
  veiled_outcome (make_archival_record m (excl cf)) = veiled_outcome (make_archival_record m' (excl cf)).
Proof.
  intros (Hh & Hs & Hl & Hf & Hk & Hd & Hn) Hx.
  assert (E : forall b b', (if negb (N.eqb (h_type (m_header m)) 20) then Fail ErrNotType20
     else if length (vis (m_data m)) <? 72 then Fail ErrParseFailed else if (b : bool) then Ret None else Ret (Some tt)) = Ret None <->
     (if negb (N.eqb (h_type (m_header m)) 20) then Fail ErrNotType20
     else if length (vis (m_data m)) <? 72 then Fail ErrParseFailed else if (b' : bool) then Ret None else Ret (Some tt)) = Ret None ->
     (negb (N.eqb (h_type (m_header m)) 20) = true \/ length (vis (m_data m)) < 72) \/ b = b').
  { intros b b' [X Y]. destruct (negb _); [left; left; done|]. destruct (Nat.ltb_spec (length (vis (m_data m))) 72); [left; right; done|]. right.
    destruct b, b'; try done; [specialize (X eq_refl) | specialize (Y eq_refl)]; discriminate. }
  rewrite !make_unfold in *. unfold data_of in *. rewrite <- Hh, <- Hl in *.
  destruct (negb (N.eqb (h_type (m_header m)) 20)); [done|]. destruct (Nat.ltb_spec (length (vis (m_data m))) 72) as [L|L]; [done|].
  set (b := match excl cf with None => false | Some e => excluded e (load_idm (firstn 72 (vis (m_data m)))) end) in *.
  set (b' := match excl cf with None => false | Some e => excluded e (load_idm (firstn 72 (vis (m_data m')))) end) in *.
  assert (EB : b = b').
  { assert (NR : forall z, bind (parse_route_attr z) (fun attrs => Ret (Some (mkar zero_time (Some (firstn 72 (vis (m_data m)))) (fill_slots (cap_attr_type (max_attr_type attrs)) attrs) None))) <> Ret None).
    { intros z. destruct (parse_route_attr z); discriminate. }
    assert (NR' : forall z, bind (parse_route_attr z) (fun attrs => Ret (Some (mkar zero_time (Some (firstn 72 (vis (m_data m')))) (fill_slots (cap_attr_type (max_attr_type attrs)) attrs) None))) <> Ret None).
    { intros z. destruct (parse_route_attr z); discriminate. }
    destruct b, b'; try done; destruct Hx as [X Y]; [specialize (X eq_refl) | specialize (Y eq_refl)]; exfalso; [eapply NR' | eapply NR]; eassumption. }
  rewrite <- EB. destruct b; [done|].
  assert (S72 : skipn 72 (vis (m_data m)) = skipn 72 (vis (m_data m'))).
  { change 72 with (40 + 32). rewrite <- !drop_drop. by rewrite Hk. }
  rewrite <- S72, <- Hs. destruct (parse_route_attr _) as [attrs| | |]; cbn [bind veiled_outcome]; try done.
  do 2 f_equal. unfold veiled_record. cbn [ar_time ar_raw ar_attrs ar_meta option_map]. do 2 f_equal.
  specialize (Hd L). specialize (Hn L). unfold raw_of, data_of in *. unfold veiled_header. rewrite <- Hd. destruct (hidden_header anon (firstn 72 (vis (m_data m)))); [done|]. by apply Hn.
Qed.
Lemma msg_same t m m' s s' : treated_alike anon (excl cf) m m' -> s ~ s' -> handle_msg w cf c_ar t m s ~ handle_msg w cf c_ar t m' s'.
Proof.
  intros Hm H. unfold handle_msg. pose proof (vs_eq _ _ H) as (_&_&_&_&_&Lo&Po&_&De). rewrite <- De. destruct (s_dead s); [exact H|].
  destruct m as [m|], m' as [m'|]; try contradiction; [|exact H]. destruct Hm as [Ha Hx]. pose proof (make_same m m' Ha Hx) as E.
  destruct (make_archival_record m (excl cf)) as [[r|]|e| |], (make_archival_record m' (excl cf)) as [[r'|]|e'| |]; cbn [veiled_outcome] in E; try discriminate E; [|exact H|exact H|by apply vs_crash|by apply vs_crash].
  assert (V : vr r = vr r') by (cbn in E; congruence).
  assert (V' : vr (mkar t (ar_raw r) (ar_attrs r) (ar_meta r)) = vr (mkar t (ar_raw r') (ar_attrs r') (ar_meta r'))).
  { unfold veiled_record in *. cbn [ar_time ar_raw ar_attrs ar_meta]. congruence. }
  rewrite <- Po. cbn [s_loop with_pos]. rewrite <- Lo, <- (stats_same _ _ V').
  apply swap_same; [unfold veiled_cell; cbn [c_uid c_ar]; by rewrite V'|]. apply vs_loop, vs_pos, H.
Qed.
Lemma type_same t ms : forall ms' s s', Forall2 (treated_alike anon (excl cf)) ms ms' -> s ~ s' -> handle_type w cf c_ar t ms s ~ handle_type w cf c_ar t ms' s'.
Proof.
  unfold handle_type. induction ms as [|m ms IH]; intros ms' s s' F H; inversion F; subst; [exact H|]. cbn [foldl]. apply IH; [done|]. by apply msg_same.
Qed.
Lemma raw_keys {A} (f : A -> A) (t : pmap.Pmap_raw A) : forall j acc,
  pmap.Pto_list_raw j (pmap.Pfmap_raw f t) (prod_map id f <$> acc) = prod_map id f <$> pmap.Pto_list_raw j t acc.
Proof.
  induction t as [|o l IHl r IHr]; intros j acc; cbn; [done|]. rewrite IHr, IHl. by destruct o.
Qed.
Lemma keys_fmap {A} (f : A -> A) (m : gmap N A) : map_to_list (f <$> m) = prod_map id f <$> map_to_list m.
Proof.
  destruct m as [[t Ht] Hm].
  change (omap (fun '(i, x) => (., x) <$> (decode i : option N)) (pmap.Pto_list_raw 1 (pmap.Pfmap_raw f t) (prod_map id f <$> [])) =
    prod_map id f <$> omap (fun '(i, x) => (., x) <$> (decode i : option N)) (pmap.Pto_list_raw 1 t [])).
  rewrite raw_keys. generalize (pmap.Pto_list_raw 1 t []). intros l.
  induction l as [|[i x] l IH]; [done|]. cbn. destruct (decode i); cbn; [f_equal|]; exact IH.
Qed.
Lemma keys_same {A} (f : A -> A) (m m' : gmap N A) : f <$> m = f <$> m' -> (map_to_list m).*1 = (map_to_list m').*1.
Proof.
  intros H. assert (E : forall x : gmap N A, (map_to_list x).*1 = (map_to_list (f <$> x)).*1).
  { intros x. rewrite keys_fmap. rewrite <- list_fmap_compose. apply list_fmap_ext. intros i [k v] _. done. }
  rewrite (E m), (E m'), H. done.
Qed.
Definition vkc (p : N * cell) : N * cell := (p.1, vc p.2).
Lemma round_same s s' : s ~ s' -> map vkc (end_round w s).1 = map vkc (end_round w s').1 /\ (end_round w s).2 ~ (end_round w s').2.
Proof.
  intros H. unfold end_round. pose proof (vs_eq _ _ H) as (C&_&_&_&_&_&Po&_&De). rewrite <- De. destruct (s_dead s); [by split|].
  pose proof C as C'. injection C' as C1 C2 C3.
  assert (Sz : size (cur (s_cache s)) = size (cur (s_cache s'))) by (rewrite <- (map_size_fmap vc (cur (s_cache s))), <- (map_size_fmap vc (cur (s_cache s'))), C1; done).
  rewrite <- Sz. set (t := emit _ s). set (t' := emit _ s'). assert (T : t ~ t') by (by apply vs_emit).
  change (s_cache t) with (s_cache s). change (s_cache t') with (s_cache s').
  unfold end_cycle, range_keys. cbn [fst snd].
  assert (W : with_cache (mkcache ∅ (cur (s_cache s)) (cycles (s_cache s) + 1)) t ~ with_cache (mkcache ∅ (cur (s_cache s')) (cycles (s_cache s') + 1)) t').
  { apply vs_cache; [exact T|]. unfold vcache. cbn [cur prev cycles]. rewrite !fmap_empty. congruence. }
  cbn [s_pos with_cache]. pose proof (vs_eq _ _ T) as (_&_&_&_&_&_&Pt&_). rewrite <- Pt, <- (keys_same vc _ _ C2). split; [|by apply vs_pos].
  generalize (order w (p_range (s_pos t)) (map_to_list (prev (s_cache s))).*1). intros ks. induction ks as [|k ks IH]; [done|].
  cbn [omap list_omap]. pose proof (f_equal (fun z => z !! k) C2) as E. cbn in E. rewrite !lookup_fmap in E.
  destruct (prev (s_cache s) !! k) as [e|], (prev (s_cache s') !! k) as [e'|]; try discriminate E; cbn [map]; [|exact IH].
  rewrite IH. f_equal. unfold vkc. cbn [fst snd]. cbn in E. congruence.
Qed.
Lemma close_same km km' s s' : vkc km = vkc km' -> s ~ s' -> close_one w cf c_ar km s ~ close_one w cf c_ar km' s'.
Proof.
  intros Hk H. destruct km as [k c], km' as [k' c']. unfold vkc in Hk. cbn [fst snd] in Hk. assert (k' = k) as -> by congruence.
  assert (Hc : vc c = vc c') by congruence. pose proof (vc_eq _ _ Hc) as Hr. unfold close_one.
  pose proof (vs_eq _ _ H) as (_&_&Cl&Ct&_&Lo&_&_&De). rewrite <- De. destruct (s_dead s); [exact H|].
  rewrite <- (diag_same _ _ Hr), <- (stats_same _ _ Hr), <- Cl, <- Ct.
  set (d := if negb (has_diag_info (c_ar c)) then _ else (get_stats (c_ar c), s)). set (d' := if negb (has_diag_info (c_ar c)) then _ else (get_stats (c_ar c), s')).
  assert (D : d.1 = d'.1 /\ d.2 ~ d'.2).
  { subst d d'. destruct (negb _); [|by split]. destruct (s_closing s !! k); [|by split]. cbn [fst snd]. split; [done|]. by apply vs_closing. }
  destruct d as [st s1], d' as [st' s1']. cbn [fst snd] in D. destruct D as [<- D]. pose proof (vs_eq _ _ D) as (_&_&_&_&_&Lo'&_). rewrite <- Lo'.
  set (t := with_loop _ s1). set (t' := with_loop _ s1'). assert (T : t ~ t') by (by apply vs_loop). clearbody t t'.
  pose proof (end_conn_same k _ _ T) as E. pose proof (vs_eq _ _ E) as (_&_&_&_&Se&_&_&_&Dd). rewrite <- Dd.
  destruct (s_dead (end_conn w cf k t)); [exact E|]. unfold inc_expired. rewrite <- Se. by apply vs_stats.
Qed.
Lemma closes_same l : forall l' s s', map vkc l = map vkc l' -> s ~ s' -> foldl (fun s km => close_one w cf c_ar km s) s l ~ foldl (fun s km => close_one w cf c_ar km s) s' l'.
Proof.
  induction l as [|x l IH]; intros [|x' l'] s s' E H; try discriminate E; [exact H|]. cbn [foldl]. cbn [map] in E.
  pose proof (f_equal (List.hd (vkc x)) E) as E1. pose proof (f_equal (@List.tl _) E) as E2. apply IH; [exact E2|]. by apply close_same.
Qed.
Lemma report_one_same total rep obs err s s' : (forall n, veiled anon (obs n) = obs n) -> (forall b, veiled anon (err b) = err b) -> s ~ s' ->
  (report_one total rep obs err s).1 = (report_one total rep obs err s').1 /\ (report_one total rep obs err s).2 ~ (report_one total rep obs err s').2.
Proof. intros Ho He H. unfold report_one. destruct (_ || _); cbn [fst snd]; (split; [done|]); by apply vs_emit. Qed.
Lemma report_same t s s' : s ~ s' -> report t s ~ report t s'.
Proof.
  intros H. unfold report. pose proof (vs_eq _ _ H) as (_&_&_&Ct&_&Lo&_&_&De). rewrite <- De. destruct (s_dead s); [exact H|]. rewrite <- Lo, <- Ct.
  destruct (l_last (s_loop s) <? unix t)%Z; [|by apply vs_loop].
  set (total := add2 _ _). destruct (report_one_same total.1 (l_reported (s_loop s)).1 AObsSent AErrSent s s' ltac:(done) ltac:(done) H) as [A1 A2].
  destruct (report_one _ _ AObsSent _ s) as [a s1], (report_one _ _ AObsSent _ s') as [a' s1']. cbn [fst snd] in A1, A2. subst a'.
  destruct (report_one_same total.2 (l_reported (s_loop s)).2 AObsRecv AErrRecv s1 s1' ltac:(done) ltac:(done) A2) as [B1 B2].
  destruct (report_one _ _ AObsRecv _ s1) as [b s2], (report_one _ _ AObsRecv _ s1') as [b' s2']. cbn [fst snd] in B1, B2. subst b'. by apply vs_loop.
Qed.
Lemma block_same b b' s s' : alike_blocks anon (excl cf) b b' -> s ~ s' -> do_block w cf c_ar b s ~ do_block w cf c_ar b' s'.
Proof.
  intros (T4 & T6 & M4 & M6) H. unfold do_block. rewrite <- T4, <- T6. cbn zeta.
  pose proof (type_same (V6Time b) _ _ _ _ M6 (type_same (V4Time b) _ _ _ _ M4 H)) as H1.
  destruct (round_same _ _ H1) as [R1 R2]. destruct (end_round w _) as [l s1] eqn:E1 in R1, R2 |- *.
  destruct (end_round w (handle_type w cf c_ar (V6Time b) (V6Messages b') _)) as [l' s1'] eqn:E2 in R1, R2 |- *. cbn [fst snd] in R1, R2.
  apply report_same. by apply closes_same.
Qed.
Lemma loop_same bs : forall bs' s s', Forall2 (alike_blocks anon (excl cf)) bs bs' -> s ~ s' -> loop w cf bs s ~ loop w cf bs' s'.
Proof.
  unfold loop. induction bs as [|b bs IH]; intros bs' s s' F H; inversion F; subst; [exact H|]. cbn [foldl]. apply IH; [done|]. by apply block_same.
Qed.
Lemma saver_same bs bs' : Forall2 (alike_blocks anon (excl cf)) bs bs' -> message_saver_loop w cf bs ~ message_saver_loop w cf bs'.
Proof.
  intros F. unfold message_saver_loop. pose proof (loop_same bs bs' new_saver new_saver F eq_refl) as H. revert H.
  generalize (loop w cf bs new_saver), (loop w cf bs' new_saver). intros s s' H. unfold close.
  pose proof (vs_eq _ _ H) as (_&C&_&_&_&_&P&_&De). rewrite <- De. destruct (s_dead s); [exact H|].
  unfold range_keys. rewrite <- P, <- (keys_same vconn _ _ C). generalize (order w (p_range (s_pos s)) (map_to_list (s_conns s)).*1). intros ks.
  set (p := mkpos _ _ _ _ _ _). pose proof (vs_pos p _ _ H) as Hp. revert Hp. generalize (with_pos p s), (with_pos p s'). clear. intros s s' H.
  assert (E : foldl (fun s k => end_conn_alive w cf k s) s ks ~ foldl (fun s k => end_conn_alive w cf k s) s' ks).
  { revert s s' H. induction ks as [|k ks IH]; intros s s' H; [exact H|]. cbn [foldl]. apply IH. unfold end_conn_alive.
    pose proof (vs_eq _ _ H) as (_&_&_&_&_&_&_&_&De). rewrite <- De. destruct (s_dead s); [exact H|]. by apply end_conn_same. }
  revert E. generalize (foldl (fun s k => end_conn_alive w cf k s) s ks), (foldl (fun s k => end_conn_alive w cf k s) s' ks). clear. intros s s' H.
  unfold close_chans. pose proof (vs_eq _ _ H) as (_&_&_&_&_&_&_&_&De). rewrite <- De. destruct (s_dead s); [exact H|]. apply vs_emit; [|done].
  revert s s' H De. generalize (seq 0 (nmarsh cf)). intros qs. induction qs as [|q qs IH]; intros s s' H De; [exact H|]. cbn [foldl]. apply IH; [by apply vs_emit | exact De].
Qed.
Lemma log_same bs bs' : Forall2 (alike_blocks anon (excl cf)) bs bs' ->
  map (veiled anon) (s_log (message_saver_loop w cf bs)) = map (veiled anon) (s_log (message_saver_loop w cf bs')).
Proof. intros F. pose proof (vs_eq _ _ (saver_same bs bs' F)) as (_&_&_&_&_&_&_&L&_). exact L. Qed.
End Runs.
End Veil.

(** ** Files *)
Section Files.
Variables (anon : bytes -> bytes) (line : archival -> bytes) (hline : metadata -> bytes).
Hypothesis Hlen : forall x, length (anon x) = length x.
Lemma line_same a a' : veiled anon a = veiled anon a' -> file_line anon line hline a = file_line anon line hline a'.
Proof.
  intros H. destruct a, a'; try destruct msg; try destruct msg0; cbn [veiled] in H; try discriminate H; try reflexivity; try (by injection H as <- <-).
  cbn [file_line]. assert (V : veiled_record anon (c_ar c) = veiled_record anon (c_ar c0)) by (unfold veiled_cell in H; congruence).
  unfold hidden. assert (E : hidden_header anon (header (c_ar c)) = hidden_header anon (header (c_ar c0))).
  { unfold header. injection V as _ V _ _. destruct (ar_raw (c_ar c)), (ar_raw (c_ar c0)); try discriminate V; [|done].
    injection V as V. by apply (veiled_same anon Hlen) in V as (_ & _ & _ & ?). }
  rewrite <- E. destruct (hidden_header anon (header (c_ar c))); [|done]. injection V as -> _ -> ->. done.
Qed.
Lemma about_veiled wr a : about wr (veiled anon a) = about wr a.
Proof. destruct a; try done. by destruct msg. Qed.
Lemma actions_veiled wr l : map (veiled anon) (file_actions wr l) = file_actions wr (map (veiled anon) l).
Proof.
  unfold file_actions. induction l as [|a l IH]; [done|]. cbn [List.filter map]. rewrite about_veiled. destruct (about wr a); cbn [map]; by rewrite IH.
Qed.
Lemma lines_same l : forall l', map (veiled anon) l = map (veiled anon) l' -> map (file_line anon line hline) l = map (file_line anon line hline) l'.
Proof.
  induction l as [|a l IH]; intros [|a' l'] H; try discriminate H; [done|]. cbn [map] in *.
  pose proof (f_equal (List.hd (veiled anon a)) H) as H1. pose proof (f_equal (@List.tl _) H) as H2. cbn [List.hd List.tl] in H1, H2.
  by rewrite (line_same _ _ H1), (IH _ H2).
Qed.
Lemma contents_same wr l l' : map (veiled anon) l = map (veiled anon) l' -> contents anon line hline wr l = contents anon line hline wr l'.
Proof. intros H. unfold contents. f_equal. apply lines_same. by rewrite !actions_veiled, H. Qed.
Lemma ended_veiled wr l : ended_file wr (map (veiled anon) l) = ended_file wr l.
Proof.
  unfold ended_file. rewrite <- actions_veiled. induction (file_actions wr l) as [|a l' IH]; [done|]. cbn [map existsb]. rewrite IH. f_equal.
  destruct a; try done. by destruct msg.
Qed.
Lemma final_same wr l l' : map (veiled anon) l = map (veiled anon) l' -> final_file anon line hline wr l = final_file anon line hline wr l'.
Proof.
  intros H. unfold final_file. rewrite (contents_same wr l l' H), <- (ended_veiled wr l), <- (ended_veiled wr l'), H.
  assert (E : map (veiled anon) (file_actions wr l) = map (veiled anon) (file_actions wr l')) by (by rewrite !actions_veiled, H).
  destruct (file_actions wr l) as [|a k], (file_actions wr l') as [|a' k']; try discriminate E; [done|]. cbn [map] in E.
  pose proof (f_equal (List.hd (veiled anon a)) E) as E1. cbn [List.hd] in E1.
  destruct a, a'; try destruct msg; try destruct msg0; cbn [veiled] in E1; try discriminate E1; try done. by injection E1 as <- <-.
Qed.
Lemma created_veiled wr p l l' : map (veiled anon) l = map (veiled anon) l' -> ACreate wr p ∈ l -> ACreate wr p ∈ l'.
Proof.
  intros H I. apply elem_of_list_In in I. assert (J : List.In (ACreate wr p) (map (veiled anon) l)) by (apply in_map_iff; exists (ACreate wr p); done).
  rewrite H in J. apply in_map_iff in J as (a & E & J). destruct a; try destruct msg; cbn [veiled] in E; try discriminate E. injection E as -> ->. by apply elem_of_list_In.
Qed.

End Files.

(** ** Records taken from blocks that are alike *)
Section Records.
Variable anon : bytes -> bytes.
Hypothesis Hlen : forall x, length (anon x) = length x.
Lemma accepted_same ex t ms : forall ms', Forall2 (treated_alike anon ex) ms ms' ->
  map (veiled_record anon) (accepted_of ex t ms) = map (veiled_record anon) (accepted_of ex t ms').
Proof.
  unfold accepted_of. induction ms as [|m ms IH]; intros ms' F; inversion F as [|? m' ? ms2 A F2]; subst; [done|]. cbn [omap list_omap]. specialize (IH _ F2).
  destruct m as [m|], m' as [m'|]; try contradiction; [|exact IH]. destruct A as [A X].
  pose proof (make_same anon (mkconfig 1 ex) m m' A X) as E. cbn [excl] in E.
  destruct (make_archival_record m ex) as [[r|]|e| |], (make_archival_record m' ex) as [[r'|]|e'| |]; cbn [veiled_outcome] in E; try discriminate E; try exact IH.
  cbn [map]. rewrite IH. f_equal. assert (V : veiled_record anon r = veiled_record anon r') by congruence.
  unfold veiled_record in *. cbn [ar_time ar_raw ar_attrs ar_meta]. congruence.
Qed.
Lemma comparable_same r r' : veiled_record anon r = veiled_record anon r' -> comparable r -> comparable r'.
Proof.
  intros V [L S]. split.
  - unfold header in *. injection V as _ V _ _. destruct (ar_raw r), (ar_raw r'); try discriminate V; [|cbn in L; lia].
    injection V as V. apply (veiled_same anon Hlen) in V as (V & _). lia.
  - intros i Hi. apply S. unfold slot in *. by rewrite (vr_attrs anon _ _ V).
Qed.
Lemma comparables_same l : forall l', map (veiled_record anon) l = map (veiled_record anon) l' -> Forall comparable l -> Forall comparable l'.
Proof.
  induction l as [|r l IH]; intros [|r' l'] H F; try discriminate H; [constructor|]. cbn [map] in H.
  pose proof (f_equal (List.hd (veiled_record anon r)) H) as H1. pose proof (f_equal (@List.tl _) H) as H2. cbn [List.hd List.tl] in H1, H2.
  inversion F; subst. constructor; [by apply (comparable_same r) | by apply IH].
Qed.
Lemma all_comparable_same cf bs : forall bs', Forall2 (alike_blocks anon (excl cf)) bs bs' -> all_comparable cf bs -> all_comparable cf bs'.
Proof.
  unfold all_comparable. induction bs as [|b bs IH]; intros bs' F H; inversion F as [|? b' ? bs2 A F2]; subst; [constructor|]. inversion H; subst. constructor; [|by apply IH].
  destruct A as (T4 & T6 & M4 & M6). eapply comparables_same; [|eassumption]. unfold accepted. rewrite !map_app, <- T4, <- T6. f_equal; by apply accepted_same.
Qed.
Lemma parses_same cf bs : forall bs', Forall2 (alike_blocks anon (excl cf)) bs bs' -> Forall (parses cf) bs -> Forall (parses cf) bs'.
Proof.
  assert (G : forall ms ms', Forall2 (treated_alike anon (excl cf)) ms ms' -> Forall (fun m => forall msg, m = Some msg -> make_archival_record msg (excl cf) <> Panic) ms ->
    Forall (fun m => forall msg, m = Some msg -> make_archival_record msg (excl cf) <> Panic) ms').
  { induction ms as [|m ms IH]; intros ms' F H; inversion F as [|? m' ? ms2 A F2]; subst; [constructor|]. inversion H; subst. constructor; [|by apply IH].
    intros msg -> P. destruct m as [m|]; [|contradiction]. destruct A as [A X]. pose proof (make_same anon cf m msg A X) as E. rewrite P in E.
    assert (N : make_archival_record m (excl cf) <> Panic) by (match goal with K : forall msg, Some m = Some msg -> _ |- _ => by apply K end).
    destruct (make_archival_record m (excl cf)) as [[r|]|e| |]; cbn [veiled_outcome] in E; try discriminate E. done. }
  induction bs as [|b bs IH]; intros bs' F H; inversion F as [|? b' ? bs2 A F2]; subst; [constructor|]. inversion H; subst. constructor; [|by apply IH].
  unfold parses in *. destruct A as (T4 & T6 & M4 & M6). eapply G; [|eassumption]. by apply Forall2_app.
Qed.
End Records.
