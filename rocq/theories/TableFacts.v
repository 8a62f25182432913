(** Facts about csvtool's table. *)
From Coq Require Import Strings.String List NArith ZArith Bool Arith Lia.
From Verif Require Import GoBase GoBaseFacts GoTime Layout NetIP Inetdiag Netlink Rfc3339 Rfc3339Facts SpecNetlink SpecConfig SpecAddrText AddrTextFacts IPTextFacts
  Snapshot SpecSnapshot SnapshotFacts SpecDecode StampFacts SpecArchive ArchiveFacts CsvTool SpecCsv CsvFacts CsvTable SpecTable.
Import ListNotations.
Local Open Scope list_scope.

(** ** The text has one reading *)
Lemma doubled_inj a t : doubled a t -> forall b u, doubled b u -> forall s r r', s <> x22 -> forall s', s' <> x22 ->
  t ++ x22 :: s :: r = u ++ x22 :: s' :: r' -> a = b /\ s = s' /\ r = r'.
Proof.
  induction 1 as [|c t H IH|x c t N H IH]; intros b u Hb s r r' Ns s' Ns' E.
  - destruct Hb as [|c' u Hb|x c' u N' Hb]; cbn [app] in E.
    + injection E as -> ->. auto.
    + injection E as E1 _. congruence.
    + injection E as E1 _. congruence.
  - destruct Hb as [|c' u Hb|x c' u N' Hb]; cbn [app] in E.
    + injection E as E1 _. congruence.
    + injection E as E1. destruct (IH c' u Hb s r r' Ns s' Ns' E1) as (-> & Q). auto.
    + injection E as E1 _. congruence.
  - destruct Hb as [|c' u Hb|x' c' u N' Hb]; cbn [app] in E.
    + injection E as E1 _. congruence.
    + injection E as E1 _. congruence.
    + injection E as -> E1. destruct (IH c' u Hb s r r' Ns s' Ns' E1) as (-> & Q). auto.
Qed.
Lemma plain_inj (P : byte -> Prop) t : Forall P t -> forall u, Forall P u -> forall s r s' r', ~ P s -> ~ P s' -> t ++ s :: r = u ++ s' :: r' -> t = u /\ s = s' /\ r = r'.
Proof.
  induction 1 as [|a t Pa Pt IH]; intros u Pu s r s' r' Ns Ns' E; destruct Pu as [|b u Pb Pu]; cbn [app] in E.
  - injection E as -> ->. auto.
  - injection E as -> _. contradiction.
  - injection E as -> _. contradiction.
  - injection E as -> E. destruct (IH u Pu s r s' r' Ns Ns' E) as (-> & Q). auto.
Qed.
Definition sep (b : byte) : Prop := b = x2c \/ b = x0a.
Lemma cell_inj a t b u s r s' r' : cell_text a t -> cell_text b u -> sep s -> sep s' -> t ++ s :: r = u ++ s' :: r' -> a = b /\ s = s' /\ r = r'.
Proof.
  intros A B S S' E. assert (Q : s <> x22 /\ s' <> x22) by (destruct S as [->| ->], S' as [->| ->]; split; discriminate). destruct Q as [Q Q'].
  destruct A as [a A|a t A], B as [b B|b u B].
  - eapply (plain_inj _ a A b B); [| |exact E].
    + intros (H1 & _ & _ & H2). destruct S; contradiction.
    + intros (H1 & _ & _ & H2). destruct S'; contradiction.
  - exfalso. destruct A as [|x a Hx A]; cbn [app] in E; [injection E as E _; congruence|]. injection E as E _. destruct Hx as (_ & N & _). contradiction.
  - exfalso. destruct B as [|x b Hx B]; cbn [app] in E; [injection E as E _; congruence|]. injection E as E _. destruct Hx as (_ & N & _). congruence.
  - cbn [app] in E. injection E as E. rewrite <- !app_assoc in E. cbn [app] in E. exact (doubled_inj a t A b u B s r r' Q s' Q' E).
Qed.
Lemma line_inj l t : line_text l t -> forall l' t' r r', line_text l' t' -> t ++ r = t' ++ r' -> l = l' /\ r = r'.
Proof.
  induction 1 as [c t C|c t l u C L IH]; intros l' t' r r' L' E; destruct L' as [c' t' C'|c' t' l' u' C' L'].
  - rewrite <- !app_assoc in E. cbn [app] in E. destruct (cell_inj c t c' t' x0a r x0a r' C C' ltac:(right; reflexivity) ltac:(right; reflexivity) E) as (-> & _ & ->). auto.
  - rewrite <- !app_assoc in E. cbn [app] in E. destruct (cell_inj c t c' t' x0a r x2c (u' ++ r') C C' ltac:(right; reflexivity) ltac:(left; reflexivity) E) as (_ & X & _). discriminate X.
  - rewrite <- !app_assoc in E. cbn [app] in E. destruct (cell_inj c t c' t' x2c (u ++ r) x0a r' C C' ltac:(left; reflexivity) ltac:(right; reflexivity) E) as (_ & X & _). discriminate X.
  - rewrite <- !app_assoc in E. cbn [app] in E. destruct (cell_inj c t c' t' x2c (u ++ r) x2c (u' ++ r') C C' ltac:(left; reflexivity) ltac:(left; reflexivity) E) as (-> & _ & E').
    destruct (IH l' u' r r' L' E') as (-> & ->). auto.
Qed.
Lemma line_nonempty l t : line_text l t -> t <> [].
Proof. intros [c u C|c u k v C L]; destruct u; discriminate. Qed.
Lemma one_reading rows t : table_text rows t -> forall rows', table_text rows' t -> rows = rows'.
Proof.
  induction 1 as [|l t rows u L T IH]; intros rows' H; inversion H as [Q|l' t' rows'' u' L' T' Q E]; subst.
  - reflexivity.
  - exfalso. first [apply app_eq_nil in E as [E _] | symmetry in E; apply app_eq_nil in E as [E _]]. exact (line_nonempty _ _ L' E).
  - exfalso. match goal with Z : [] = t ++ u |- _ => symmetry in Z; apply app_eq_nil in Z as [Z _]; exact (line_nonempty _ _ L Z) | Z : t ++ u = [] |- _ => apply app_eq_nil in Z as [Z _]; exact (line_nonempty _ _ L Z) end.
  - first [destruct (line_inj l t L l' t' u u' L' E) as (-> & ->) | destruct (line_inj l t L l' t' u u' L' (eq_sym E)) as (-> & ->)]. f_equal. apply IH. exact T'. 
Qed.

(** ** What is written *)
Lemma beq a b : Byte.eqb a b = true <-> a = b.
Proof. split; [apply Byte.byte_dec_bl|apply Byte.byte_dec_lb]. Qed.
Lemma escape_doubled c : doubled c (escape c).
Proof.
  induction c as [|b c IH]; cbn [escape]; [constructor|]. destruct (Byte.eqb b x22) eqn:E.
  - apply beq in E as ->. constructor. exact IH.
  - constructor; [|exact IH]. intros ->. discriminate E.
Qed.
Lemma field_text c : cell_text c (write_field c).
Proof.
  unfold write_field. destruct (needs_quotes c) eqn:E; [constructor; apply escape_doubled|]. constructor.
  unfold needs_quotes in E. destruct (bytes_eqb c []) eqn:E0; [apply bytes_eqb_eq in E0 as ->; constructor|].
  destruct (bytes_eqb c [x5c; x2e]); [discriminate E|]. destruct (existsb (fun c => Byte.eqb c x2c || Byte.eqb c x22 || Byte.eqb c x0d || Byte.eqb c x0a) c) eqn:X; [discriminate E|]. apply Forall_forall. intros b Hb.
  assert (Q : (fun c => Byte.eqb c x2c || Byte.eqb c x22 || Byte.eqb c x0d || Byte.eqb c x0a) b = false).
  { destruct ((fun c => Byte.eqb c x2c || Byte.eqb c x22 || Byte.eqb c x0d || Byte.eqb c x0a) b) eqn:Y; [|reflexivity].
    assert (Z : existsb (fun c => Byte.eqb c x2c || Byte.eqb c x22 || Byte.eqb c x0d || Byte.eqb c x0a) c = true) by (apply existsb_exists; exists b; split; assumption). congruence. }
  clear - Q. cbv beta in Q. repeat split; intros ->; vm_compute in Q; discriminate Q.
Qed.
Lemma record_text l : l <> [] -> line_text l (write_record l).
Proof.
  unfold write_record. induction l as [|c l IH]; intros N; [contradiction N; reflexivity|]. destruct l as [|d l].
  - cbn [write_fields]. constructor. apply field_text.
  - change (write_fields (c :: d :: l)) with (write_field c ++ x2c :: write_fields (d :: l)). rewrite <- app_assoc. cbn [app].
    constructor; [apply field_text|]. apply IH. discriminate.
Qed.

(** ** The cells *)
Lemma cells_app bl v a b : cells bl v (a ++ b) = match cells bl v a, cells bl v b with Some x, Some y => Some (x ++ y) | _, _ => None end.
Proof.
  induction a as [|[[ch n] o] a IH]; cbn [cells app]; [destruct (cells bl v b); reflexivity|]. rewrite IH.
  destruct (inner_field bl v ch o); [|reflexivity]. destruct (cells bl v a); [|reflexivity]. destruct (cells bl v b); reflexivity.
Qed.
(** The columns of a structure whose pointer is field [i] *)
Fixpoint block (i j : nat) (tags : list (string * string)) : list (list nat * bytes * bool) :=
  match tags with [] => [] | x :: r => ([i; j], str (snd x), false) :: block i (S j) r end.
Definition lead : list (list nat * bytes * bool) :=
  [([0], str "Timestamp", false); ([1], str "Observed", false); ([2], str "NotFullyParsed", true);
   ([3; 0], str "IDM.Family", false); ([3; 1], str "IDM.State", false); ([3; 2], str "IDM.Timer", false); ([3; 3], str "IDM.Retrans", false);
   ([3; 4; 0], str "IDM.SockID.SPort", false); ([3; 4; 1], str "IDM.SockID.DPort", false); ([3; 4; 2], str "IDM.SockID.Src", false); ([3; 4; 3], str "IDM.SockID.Dst", false);
   ([3; 4; 4], str "IDM.SockID.Interface", false); ([3; 4; 5], str "IDM.SockID.Cookie", false);
   ([3; 5], str "IDM.Expires", false); ([3; 6], str "IDM.Rqueue", false); ([3; 7], str "IDM.Wqueue", false); ([3; 8], str "IDM.UID", false); ([3; 9], str "IDM.Inode", false);
   ([4], str "CongestionAlgorithm", true); ([5], str "TOS", true); ([6], str "TClass", true); ([7], str "ClassID", true);
   ([8], str "Shutdown", true); ([9], str "Protocol", true); ([10], str "Mark", true)].
Lemma columns_eq : columns = lead ++ block 11 0 tcp_tags ++ block 12 0 mem_tags ++ block 13 0 skmem_tags ++ block 14 0 vegas_tags ++ block 15 0 dctcp_tags ++ block 16 0 bbr_tags.
Proof. vm_compute. reflexivity. Qed.
Lemma header_eq : header_row = actual_header.
Proof. vm_compute. reflexivity. Qed.

Lemma integer_decZ z : integer_text (decZ z) z.
Proof.
  unfold integer_text, decZ. destruct (Z.ltb_spec z 0) as [H|H].
  - right. split; [exact H|]. eexists. split; [reflexivity|]. apply dec_numeral.
  - left. split; [exact H|]. apply dec_numeral.
Qed.
Lemma block_nil bl top i tags : nth_error top i = Some (VPtr None) -> forall j, cells bl (VPtr (Some top)) (block i j tags) = Some (map (fun _ => []) tags).
Proof. intros H. induction tags as [|x r IH]; intros j; cbn [block cells map]; [reflexivity|]. cbn [inner_field]. rewrite H, IH. reflexivity. Qed.
Definition struct_cell (v : fields) (x : string * string) : bytes := match get_field (fst x) v with Some (VInt z) => decZ z | _ => [] end.
Lemma block_some bl top i v tags : forall pre j, length pre = j -> nth_error top i = Some (VPtr (Some (pre ++ struct_value tags v))) ->
  cells bl (VPtr (Some top)) (block i j tags) = Some (map (struct_cell v) tags).
Proof.
  induction tags as [|x r IH]; intros pre j L H; [reflexivity|]. cbn [block cells map]. unfold struct_value in H. cbn [map] in H. fold (struct_value r v) in H.
  set (w := match get_field (fst x) v with Some (VInt z) => VCell (z =? 0)%Z (Some (decZ z)) | _ => VCell true (Some []) end) in H.
  rewrite (IH (pre ++ [w]) (S j)); [|rewrite app_length; cbn [length]; lia|rewrite <- app_assoc; exact H].
  cbn [inner_field]. rewrite H. rewrite nth_error_app2 by lia. rewrite L, Nat.sub_diag. cbn [nth_error].
  unfold struct_cell. subst w. destruct (get_field (fst x) v) as [[z|b]|]; cbn [inner_field]; rewrite andb_false_r; reflexivity.
Qed.
Lemma get_in f v w : get_field f v = Some w -> In (f, w) v.
Proof.
  unfold get_field. destruct (find _ v) as [[g u]|] eqn:F; [|discriminate]. intros E. injection E as ->. apply find_some in F as [I Q]. apply String.eqb_eq in Q. cbn [fst] in Q. subst g. exact I.
Qed.
Lemma get_has f v : In f (map fst v) -> exists w, get_field f v = Some w.
Proof.
  intros H. apply in_map_iff in H as ([g w] & E & I). cbn [fst] in E. subst g. unfold get_field. destruct (find _ v) as [[g u]|] eqn:F; [eexists; reflexivity|].
  exfalso. pose proof (find_none _ _ F _ I) as Q. cbn [fst] in Q. rewrite String.eqb_refl in Q. discriminate Q.
Qed.
Lemma table_ints tb raw x : In x (read_table tb raw) -> exists z, snd x = VInt z.
Proof. intros H. apply in_map_iff in H as (f & E & _). subst x. destruct f as [[[n o] k] sg]. eexists. reflexivity. Qed.
Lemma table_names tb raw : map fst (read_table tb raw) = map (fun f : field_spec => fst (fst (fst f))) tb.
Proof. unfold read_table. rewrite map_map. apply map_ext. intros [[[n o] k] sg]. reflexivity. Qed.
Lemma block_cells bl top i prefix sel tags tb s : map fst tags = map (fun f : field_spec => fst (fst (fst f))) tb ->
  nth_error top i = Some (VPtr (option_map (struct_value tags) (sel s))) -> has_fields tb (sel s) ->
  exists l, cells bl (VPtr (Some top)) (block i 0 tags) = Some l /\ Forall2 (fun col c => snd col s c) (structure_columns prefix sel tb) l.
Proof.
  intros N H F. destruct (sel s) as [v|] eqn:Es; cbn [option_map] in H.
  - exists (map (struct_cell v) tags). split; [apply (block_some bl top i v tags [] 0); [reflexivity|exact H]|].
    destruct (F v eq_refl) as (raw & Ev).
    assert (K : forall tags' (tb' : list field_spec), (forall f, In f tb' -> In f tb) -> map fst tags' = map (fun f : field_spec => fst (fst (fst f))) tb' ->
      Forall2 (fun col c => snd col s c) (structure_columns prefix sel tb') (map (struct_cell v) tags')).
    { induction tags' as [|x tags' IH]; intros tb' Sub E; destruct tb' as [|f tb']; try discriminate E; [constructor|]. cbn [map] in E. injection E as E0 E.
      unfold structure_columns. cbn [map]. constructor; [|apply IH; [intros g Hg; apply Sub; right; exact Hg|exact E]].
      cbn [snd]. unfold field_cell. rewrite Es. destruct (get_has (fst x) v) as (w & W).
      { rewrite Ev, table_names, E0. apply (in_map (fun f : field_spec => fst (fst (fst f)))). apply Sub. left. reflexivity. }
      pose proof (get_in _ _ _ W) as I. rewrite Ev in I. destruct (table_ints _ _ _ I) as (z & Z). cbn [snd] in Z. subst w.
      exists z. split; [rewrite <- E0, Ev; exact I|]. unfold struct_cell. rewrite W. apply integer_decZ. }
    apply (K tags tb); [auto|exact N].
  - exists (map (fun _ => []) tags). split; [apply block_nil; exact H|].
    assert (K : forall tags' (tb' : list field_spec), map fst tags' = map (fun f : field_spec => fst (fst (fst f))) tb' ->
      Forall2 (fun col c => snd col s c) (structure_columns prefix sel tb') (map (fun _ : string * string => @nil byte) tags')).
    { induction tags' as [|x tags' IH]; intros tb' E; destruct tb' as [|f tb']; try discriminate E; [constructor|]. cbn [map] in E. injection E as E0 E.
      unfold structure_columns. cbn [map]. constructor; [|apply IH; exact E]. cbn [snd]. unfold field_cell. rewrite Es. reflexivity. }
    apply (K tags tb N).
Qed.

Lemma le_little l : le l = little l.
Proof. induction l as [|b l IH]; [reflexivity|]. cbn [le little fold_right]. unfold little in IH. rewrite IH. reflexivity. Qed.
Lemma be_big l : be l = big l.
Proof.
  unfold be, big. rewrite <- fold_left_rev_right. rewrite le_little. unfold little. induction (rev l) as [|b k IH]; [reflexivity|]. cbn [fold_right]. rewrite IH. apply N.add_comm.
Qed.
Lemma num_inner bl n : inner_field bl (num_cell n) [] false = Some (dec n).
Proof. unfold num_cell. cbn [inner_field]. rewrite andb_false_r. reflexivity. Qed.
Lemma text_inner bl t o : inner_field bl (text_cell t) [] o = Some t.
Proof.
  unfold text_cell. cbn [inner_field]. destruct (bytes_eqb t []) eqn:E; [|rewrite andb_false_r; reflexivity]. apply bytes_eqb_eq in E as ->. destruct (bl && o && true); reflexivity.
Qed.
Lemma omit_inner bl n : exists c, inner_field bl (num_cell n) [] true = Some c /\ number_or_blank n c.
Proof.
  unfold num_cell. cbn [inner_field]. destruct (bl && true && (n =? 0)%N) eqn:E.
  - exists []. split; [reflexivity|]. right. split; [|reflexivity]. apply andb_prop in E as [_ E]. apply N.eqb_eq in E. exact E.
  - exists (dec n). split; [reflexivity|]. left. apply dec_numeral.
Qed.
Lemma bytes_at_length raw o n : length (bytes_at raw o n) = n.
Proof. unfold bytes_at. rewrite map_length, seq_length. reflexivity. Qed.

Definition lead_columns := firstn 25 expected_columns.
Lemma expected_eq : expected_columns = lead_columns ++ structure_columns "TCP." sn_tcp tcp_table ++ structure_columns "MemInfo." sn_mem mem_table
  ++ structure_columns "SKMemInfo." sn_skmem skmem_table ++ structure_columns "Vegas." sn_vegas vegas_table ++ structure_columns "DCTCP." sn_dctcp dctcp_table ++ structure_columns "BBR." sn_bbr bbr_table.
Proof. reflexivity. Qed.

Lemma lead_cells zone bl s t : marshal_time (zone (sn_time s)) (sn_time s) = Some t -> (forall m, sn_idm s = Some m -> exists raw, m = header_at raw) ->
  exists l, cells bl (VPtr (Some (snapshot_value zone s))) lead = Some l /\ Forall2 (fun col c => snd col s c) lead_columns l.
Proof.
  intros T Hm. set (top := snapshot_value zone s).
  destruct (omit_inner bl (sn_notparsed s)) as (c1 & C1 & D1). destruct (omit_inner bl (sn_tos s)) as (c2 & C2 & D2). destruct (omit_inner bl (sn_tclass s)) as (c3 & C3 & D3).
  destruct (omit_inner bl (sn_classid s)) as (c4 & C4 & D4). destruct (omit_inner bl (sn_shutdown s)) as (c5 & C5 & D5).
  destruct (omit_inner bl (sn_protocol s)) as (c6 & C6 & D6). destruct (omit_inner bl (sn_mark s)) as (c7 & C7 & D7).
  assert (T' : inner_field bl (VCell false (marshal_time (zone (sn_time s)) (sn_time s))) [] false = Some t) by (cbn [inner_field]; rewrite andb_false_r; exact T).
  assert (ST : stamp t (sn_time s)) by (apply stamp_iff; exact (parse_format _ _ _ T)).
  pose proof (num_inner bl) as NI. pose proof (text_inner bl) as TI.
  assert (step : forall i rest o, inner_field bl (VPtr (Some top)) (i :: rest) o = match nth_error top i with Some w => inner_field bl w rest o | None => None end) by reflexivity.
  unfold lead. cbn [cells]. rewrite !step. unfold top. clear step. unfold snapshot_value. cbn [nth_error].
  rewrite T', C1, C2, C3, C4, C5, C6, C7, !NI, !TI.
  destruct (sn_idm s) as [m|] eqn:Em; cbn [option_map].
  - assert (step : forall i rest o, inner_field bl (VPtr (Some (idm_value m))) (i :: rest) o = match nth_error (idm_value m) i with Some w => inner_field bl w rest o | None => None end) by reflexivity.
    rewrite !step. clear step. unfold idm_value. cbn [nth_error]. rewrite !NI.
    assert (step : forall i rest o, inner_field bl (sock_value (idiag_id m)) (i :: rest) o = match nth_error (map text_cell (sock_csv (idiag_id m))) i with Some w => inner_field bl w rest o | None => None end) by reflexivity.
    rewrite !step. clear step. unfold sock_csv. cbn [map nth_error]. rewrite !TI.
    eexists. split; [reflexivity|]. destruct (Hm m eq_refl) as (raw & Er).
    unfold lead_columns, expected_columns. cbn [firstn app].
    repeat first [apply Forall2_nil | apply Forall2_cons]; cbn [snd]; try assumption; try apply dec_numeral; unfold header_cell; rewrite ?Em; try apply dec_numeral; try reflexivity.
    + unfold port_csv. rewrite be_big. apply dec_numeral.
    + unfold port_csv. rewrite be_big. apply dec_numeral.
    + unfold ip_csv. apply ip_text. rewrite Er. apply bytes_at_length.
    + unfold ip_csv. apply ip_text. rewrite Er. apply bytes_at_length.
    + unfold if_csv. rewrite be_big. apply dec_numeral.
    + unfold cookie_csv. rewrite le_little. apply hexX_numeral.
  - eexists. split; [reflexivity|]. unfold lead_columns, expected_columns. cbn [firstn app].
    repeat first [apply Forall2_nil | apply Forall2_cons]; cbn [snd]; try assumption; try apply dec_numeral; unfold header_cell; rewrite ?Em; reflexivity.
Qed.
Lemma row_shown zone bl s : well_formed s -> writable_time zone (sn_time s) -> exists l, row zone bl s = Some l /\ shown_in s l.
Proof.
  intros (F1 & F2 & F3 & F4 & F5 & F6 & Fm) W. apply time_json_some in W as (t & T).
  destruct (lead_cells zone bl s t T Fm) as (l0 & E0 & H0).
  destruct (block_cells bl (snapshot_value zone s) 11 "TCP." sn_tcp tcp_tags tcp_table s eq_refl eq_refl F1) as (l1 & E1 & H1).
  destruct (block_cells bl (snapshot_value zone s) 12 "MemInfo." sn_mem mem_tags mem_table s eq_refl eq_refl F2) as (l2 & E2 & H2).
  destruct (block_cells bl (snapshot_value zone s) 13 "SKMemInfo." sn_skmem skmem_tags skmem_table s eq_refl eq_refl F3) as (l3 & E3 & H3).
  destruct (block_cells bl (snapshot_value zone s) 14 "Vegas." sn_vegas vegas_tags vegas_table s eq_refl eq_refl F4) as (l4 & E4 & H4).
  destruct (block_cells bl (snapshot_value zone s) 15 "DCTCP." sn_dctcp dctcp_tags dctcp_table s eq_refl eq_refl F5) as (l5 & E5 & H5).
  destruct (block_cells bl (snapshot_value zone s) 16 "BBR." sn_bbr bbr_tags bbr_table s eq_refl eq_refl F6) as (l6 & E6 & H6).
  exists (l0 ++ l1 ++ l2 ++ l3 ++ l4 ++ l5 ++ l6). split.
  - unfold row. rewrite columns_eq, !cells_app, E0, E1, E2, E3, E4, E5, E6. reflexivity.
  - unfold shown_in. rewrite expected_eq. repeat apply Forall2_app; assumption.
Qed.
Lemma row_needs zone bl s l : row zone bl s = Some l -> writable_time zone (sn_time s).
Proof.
  unfold row. rewrite columns_eq, cells_app. intros E. apply time_json_some.
  destruct (cells bl (VPtr (Some (snapshot_value zone s))) lead) as [k|] eqn:L; [|discriminate E]. clear E.
  unfold lead in L. match type of L with cells ?b ?v (?c :: ?r) = _ => change (cells b v (c :: r)) with (match inner_field b v [0] false, cells b v r with Some c0, Some l0 => Some (c0 :: l0) | _, _ => None end) in L; destruct (inner_field b v [0] false) as [x|] eqn:X; [|discriminate L] end.
  clear L. change (inner_field bl (VPtr (Some (snapshot_value zone s))) [0] false) with (if bl && false && false then Some [] else marshal_time (zone (sn_time s)) (sn_time s)) in X.
  rewrite andb_false_r in X. exists x. exact X.
Qed.
Lemma write_rows_ok zone bl ss : Forall well_formed ss -> forall t, write_rows zone bl ss = (t, true) -> exists rows, table_text rows t /\ Forall2 shown_in ss rows.
Proof.
  induction 1 as [|s ss Hs Hss IH]; intros t E; cbn [write_rows] in E.
  - injection E as <-. exists []. split; constructor.
  - destruct (row zone bl s) as [l|] eqn:R; [|discriminate E]. destruct (write_rows zone bl ss) as [u ok]. injection E as <- ->.
    destruct (IH u eq_refl) as (rows & T & F). destruct (row_shown zone bl s Hs (row_needs _ _ _ _ R)) as (l' & R' & S). rewrite R in R'. injection R' as <-.
    exists (l :: rows). split; [|constructor; assumption]. constructor; [|exact T]. apply record_text. intros ->. inversion S.
Qed.
Lemma table_ok zone bl ss out : Forall well_formed ss -> to_csv zone bl ss = (out, true) -> exists rows, table_text (actual_header :: rows) out /\ Forall2 shown_in ss rows.
Proof.
  intros W E. unfold to_csv in E. destruct (write_rows zone bl ss) as [t ok] eqn:Q. destruct ok; [|discriminate E].
  apply (f_equal fst) in E. cbn [fst] in E. rewrite <- E. rewrite header_eq.
  destruct (write_rows_ok zone bl ss W t Q) as (rows & T & F). exists rows. split; [|exact F]. apply ta_line; [|exact T]. apply record_text. discriminate.
Qed.
Lemma table_written zone bl ss : Forall well_formed ss -> ((exists out, to_csv zone bl ss = (out, true)) <-> Forall (fun s => writable_time zone (sn_time s)) ss).
Proof.
  intros W. unfold to_csv.
  assert (K : snd (write_rows zone bl ss) = true <-> Forall (fun s => writable_time zone (sn_time s)) ss).
  { induction W as [|s ss Hs Hss IH]; cbn [write_rows]; [split; [constructor|reflexivity]|]. destruct (row zone bl s) as [l|] eqn:R.
    - destruct (write_rows zone bl ss) as [t ok]. cbn [snd] in *. rewrite IH. split; [intros H; constructor; [exact (row_needs _ _ _ _ R)|exact H]|intros H; inversion H; assumption].
    - cbn [snd]. split; [discriminate|]. intros H. inversion H as [|? ? A B]; subst. destruct (row_shown zone bl s Hs A) as (l & Q & _). congruence. }
  rewrite <- K. destruct (write_rows zone bl ss) as [t ok]. cbn [snd]. destruct ok; split.
  - reflexivity. - intros _. eexists. reflexivity. - intros (out & E). discriminate E. - discriminate.
Qed.

(** ** Nothing is lost *)
Lemma numeral_fun c n m : numeral c n -> numeral c m -> n = m.
Proof. intros (_ & _ & A & _) (_ & _ & B & _). congruence. Qed.
Lemma number_fun c n m : number_or_blank n c -> number_or_blank m c -> n = m.
Proof.
  intros [A|[-> A]] [B|[-> B]]; [exact (numeral_fun c n m A B)| | |reflexivity]; subst c; [destruct A as (A & _)|destruct B as (B & _)]; congruence.
Qed.
Lemma numeral_digits c n : numeral c n -> hd_error c <> Some x2d.
Proof. intros (_ & D & _) E. destruct c as [|b c]; [discriminate E|]. injection E as ->. inversion D as [|? ? X]. vm_compute in X. destruct X as [X _]. apply X. reflexivity. Qed.
Lemma integer_fun c n m : integer_text c n -> integer_text c m -> n = m.
Proof.
  intros [(A & P)|(A & t & -> & P)] [(B & Q)|(B & u & E & Q)].
  - pose proof (numeral_fun _ _ _ P Q). lia.
  - subst c. contradiction (numeral_digits _ _ P). reflexivity.
  - contradiction (numeral_digits _ _ Q). reflexivity.
  - injection E as <-. pose proof (numeral_fun _ _ _ P Q). lia.
Qed.
Lemma hexl_same n l v w : hexl n l v -> hexl n l w -> v = w.
Proof. induction 1 as [|n b d l v H A IH]; intros B; inversion B; subst; [reflexivity|]. apply IH. congruence. Qed.
Lemma hex_fun c n m : hex_numeral c n -> hex_numeral c m -> n = m.
Proof. intros (_ & A & _) (_ & B & _). eapply hexl_same; apply hex_value_hexl; [exact A|exact B]. Qed.
Lemma both {A B} (P Q : A -> B -> Prop) l k : Forall2 P l k -> Forall2 Q l k -> forall i a, nth_error l i = Some a -> exists b, P a b /\ Q a b.
Proof.
  induction 1 as [|a b l k H F IH]; intros G i x N; inversion G; subst; [destruct i; discriminate N|]. destruct i as [|i]; [injection N as <-; exists b; split; assumption|]. eapply IH; eassumption.
Qed.
Lemma integer_nonempty z : ~ integer_text [] z.
Proof. intros [(_ & N & _)|(_ & t & E & _)]; [contradiction N; reflexivity|discriminate E]. Qed.
Lemma fst_in_unique {A B} (l : list (A * B)) : NoDup (map fst l) -> forall a b c, In (a, b) l -> In (a, c) l -> b = c.
Proof.
  induction l as [|[x y] l IH]; intros N a b c I J; [destruct I|]. inversion N as [|? ? N1 N2]; subst. cbn [fst] in N1.
  destruct I as [I|I], J as [J|J].
  - congruence.
  - injection I as -> ->. contradiction N1. apply (in_map fst) in J. exact J.
  - injection J as -> ->. contradiction N1. apply (in_map fst) in I. exact I.
  - exact (IH N2 a b c I J).
Qed.
Lemma same_struct prefix sel tb s s' l : tb <> [] -> NoDup (map (fun f : field_spec => fst (fst (fst f))) tb) -> has_fields tb (sel s) -> has_fields tb (sel s') ->
  Forall2 (fun col c => snd col s c) (structure_columns prefix sel tb) l -> Forall2 (fun col c => snd col s' c) (structure_columns prefix sel tb) l -> sel s = sel s'.
Proof.
  intros Ne Nd F F' A B.
  assert (K : forall f, In f tb -> exists c, field_cell sel (fst (fst (fst f))) s c /\ field_cell sel (fst (fst (fst f))) s' c).
  { intros f Hf. apply In_nth_error in Hf as (i & Hi). destruct (both _ _ _ _ A B i ((prefix ++ fst (fst (fst f)))%string, field_cell sel (fst (fst (fst f))))) as (c & P & Q).
    - exact (map_nth_error (fun f : field_spec => ((prefix ++ fst (fst (fst f)))%string, field_cell sel (fst (fst (fst f))))) i tb Hi).
    - exists c. split; [exact P|exact Q]. }
  unfold field_cell in K. destruct (sel s) as [v|] eqn:Ev, (sel s') as [v'|] eqn:Ev'.
  - destruct (F v eq_refl) as (raw & R), (F' v' eq_refl) as (raw' & R'). subst v v'. f_equal. unfold read_table. apply map_ext_in. intros f Hf.
    destruct (K f Hf) as (c & (z & Iz & Tz) & (z' & Iz' & Tz')). pose proof (integer_fun _ _ _ Tz Tz'). subst z'.
    assert (G : forall r, In (fst (fst (fst f)), VInt z) (read_table tb r) -> read_field r f = (fst (fst (fst f)), VInt z)).
    { intros r I. assert (J : In (read_field r f) (read_table tb r)) by (apply in_map; exact Hf). destruct f as [[[n o] w] sg]. cbn [fst] in *. cbn [read_field] in *. f_equal.
      eapply fst_in_unique; [|exact J|exact I]. rewrite table_names. exact Nd. }
    rewrite (G raw Iz), (G raw' Iz'). reflexivity.
  - exfalso. destruct tb as [|f tb]; [contradiction Ne; reflexivity|]. destruct (K f ltac:(left; reflexivity)) as (c & (z & _ & Tz) & ->). exact (integer_nonempty z Tz).
  - exfalso. destruct tb as [|f tb]; [contradiction Ne; reflexivity|]. destruct (K f ltac:(left; reflexivity)) as (c & -> & (z & _ & Tz)). exact (integer_nonempty z Tz).
  - reflexivity.
Qed.
Lemma address_fun x y t : length x = 16 -> length y = 16 -> address_text x t -> address_text y t -> ip_string (ip x) = ip_string (ip y).
Proof.
  intros Lx Ly A B. destruct (same_text x y t Lx Ly A B) as [->|(a & b & c & d & Fx & Fy)]; [reflexivity|].
  rewrite (four_text x _ a b c d (ip_text x Lx) Fx), (four_text y _ a b c d (ip_text y Ly) Fy). reflexivity.
Qed.
Fixpoint nd_dec (l : list string) : bool := match l with [] => true | x :: r => negb (existsb (String.eqb x) r) && nd_dec r end.
Lemma nd l : nd_dec l = true -> NoDup l.
Proof.
  induction l as [|x l IH]; intros H; [constructor|]. cbn [nd_dec] in H. apply andb_prop in H as [A B]. constructor; [|apply IH; exact B].
  intros I. assert (E : existsb (String.eqb x) l = true) by (apply existsb_exists; exists x; split; [exact I|apply String.eqb_refl]). rewrite E in A. discriminate A.
Qed.
Lemma same_row s s' l : well_formed s -> well_formed s' -> shown_in s l -> shown_in s' l -> same_contents s s'.
Proof.
  intros (F1 & F2 & F3 & F4 & F5 & F6 & Fm) (G1 & G2 & G3 & G4 & G5 & G6 & Gm) A B.
  pose proof (both _ _ _ _ A B) as K.
  assert (HH : forall i n P, nth_error expected_columns i = Some (n, header_cell P) -> forall m m', sn_idm s = Some m -> sn_idm s' = Some m' -> exists c, P m c /\ P m' c).
  { intros i n P Hi m m' Em Em'. destruct (K i _ Hi) as (c & X & Y). cbn [snd] in X, Y. unfold header_cell in X, Y. rewrite Em in X. rewrite Em' in Y. exists c. split; assumption. }
  assert (HN : (sn_idm s = None <-> sn_idm s' = None)).
  { destruct (K 3 _ eq_refl) as (c & X & Y). cbn [snd] in X, Y. unfold header_cell in X, Y. destruct (sn_idm s), (sn_idm s'); split; intros Q; try discriminate Q; try reflexivity; exfalso.
    - subst c. destruct X as (X & _). apply X. reflexivity.
    - subst c. destruct Y as (Y & _). apply Y. reflexivity. }
  unfold same_contents.
  split; [destruct (K 0 _ eq_refl) as (c & X & Y); cbn [snd] in X, Y; apply stamp_iff in X, Y; congruence|].
  split; [destruct (K 1 _ eq_refl) as (c & X & Y); exact (numeral_fun _ _ _ X Y)|].
  split; [destruct (K 2 _ eq_refl) as (c & X & Y); exact (number_fun _ _ _ X Y)|].
  split; [destruct (K 18 _ eq_refl) as (c & X & Y); cbn [snd] in X, Y; congruence|].
  split; [destruct (K 19 _ eq_refl) as (c & X & Y); exact (number_fun _ _ _ X Y)|].
  split; [destruct (K 20 _ eq_refl) as (c & X & Y); exact (number_fun _ _ _ X Y)|].
  split; [destruct (K 21 _ eq_refl) as (c & X & Y); exact (number_fun _ _ _ X Y)|].
  split; [destruct (K 22 _ eq_refl) as (c & X & Y); exact (number_fun _ _ _ X Y)|].
  split; [destruct (K 23 _ eq_refl) as (c & X & Y); exact (number_fun _ _ _ X Y)|].
  split; [destruct (K 24 _ eq_refl) as (c & X & Y); exact (number_fun _ _ _ X Y)|].
  unfold shown_in in A, B. rewrite expected_eq in A, B.
  assert (split2 : forall (c1 c2 : list (string * (snapshot -> bytes -> Prop))) k, Forall2 (fun col c => snd col s c) (c1 ++ c2) k -> Forall2 (fun col c => snd col s' c) (c1 ++ c2) k ->
    exists a b, Forall2 (fun col c => snd col s c) c1 a /\ Forall2 (fun col c => snd col s' c) c1 a /\ Forall2 (fun col c => snd col s c) c2 b /\ Forall2 (fun col c => snd col s' c) c2 b).
  { clear. induction c1 as [|x c1 IH]; intros c2 k A B; [exists [], k; repeat split; try constructor; assumption|]. cbn [app] in A, B.
    inversion A as [|? c ? k' A1 A2]; subst. inversion B as [|? ? ? ? B1 B2]; subst. destruct (IH c2 k' A2 B2) as (a & b & P1 & P2 & P3 & P4). exists (c :: a), b. repeat split; try constructor; assumption. }
  apply (split2 _ _ _ A) in B as (a0 & r0 & _ & _ & A0 & B). clear A. rename A0 into A.
  apply (split2 _ _ _ A) in B as (a1 & r1 & A1 & B1 & A' & B'). apply (split2 _ _ _ A') in B' as (a2 & r2 & A2 & B2 & A'' & B''). clear A A'.
  apply (split2 _ _ _ A'') in B'' as (a3 & r3 & A3 & B3 & A4' & B4'). apply (split2 _ _ _ A4') in B4' as (a4 & r4 & A4 & B4 & A5' & B5').
  apply (split2 _ _ _ A5') in B5' as (a5 & r5 & A5 & B5 & A6 & B6).
  split; [eapply same_struct; [| |exact F1|exact G1|exact A1|exact B1]; [discriminate|apply nd; vm_compute; reflexivity]|].
  split; [eapply same_struct; [| |exact F2|exact G2|exact A2|exact B2]; [discriminate|apply nd; vm_compute; reflexivity]|].
  split; [eapply same_struct; [| |exact F3|exact G3|exact A3|exact B3]; [discriminate|apply nd; vm_compute; reflexivity]|].
  split; [eapply same_struct; [| |exact F4|exact G4|exact A4|exact B4]; [discriminate|apply nd; vm_compute; reflexivity]|].
  split; [eapply same_struct; [| |exact F5|exact G5|exact A5|exact B5]; [discriminate|apply nd; vm_compute; reflexivity]|].
  split; [eapply same_struct; [| |exact F6|exact G6|exact A6|exact B6]; [discriminate|apply nd; vm_compute; reflexivity]|].
  clear A1 B1 A2 B2 A3 B3 A4 B4 A5 B5 A6 B6 A'' A4' A5' split2.
  destruct (sn_idm s) as [m|] eqn:Em, (sn_idm s') as [m'|] eqn:Em'.
  - specialize (fun i n P Hi => HH i n P Hi m m' eq_refl eq_refl).
    destruct (Fm m eq_refl) as (raw & Rm), (Gm m' eq_refl) as (raw' & Rm').
    split; [destruct (HH 3 _ _ eq_refl) as (c & X & Y); exact (numeral_fun _ _ _ X Y)|].
    split; [destruct (HH 4 _ _ eq_refl) as (c & X & Y); exact (numeral_fun _ _ _ X Y)|].
    split; [destruct (HH 5 _ _ eq_refl) as (c & X & Y); exact (numeral_fun _ _ _ X Y)|].
    split; [destruct (HH 6 _ _ eq_refl) as (c & X & Y); exact (numeral_fun _ _ _ X Y)|].
    split; [destruct (HH 13 _ _ eq_refl) as (c & X & Y); exact (numeral_fun _ _ _ X Y)|].
    split; [destruct (HH 14 _ _ eq_refl) as (c & X & Y); exact (numeral_fun _ _ _ X Y)|].
    split; [destruct (HH 15 _ _ eq_refl) as (c & X & Y); exact (numeral_fun _ _ _ X Y)|].
    split; [destruct (HH 16 _ _ eq_refl) as (c & X & Y); exact (numeral_fun _ _ _ X Y)|].
    split; [destruct (HH 17 _ _ eq_refl) as (c & X & Y); exact (numeral_fun _ _ _ X Y)|].
    unfold get_sockid. f_equal.
    + unfold sport. rewrite !be_big. destruct (HH 7 _ _ eq_refl) as (c & X & Y). exact (numeral_fun _ _ _ X Y).
    + unfold dport. rewrite !be_big. destruct (HH 8 _ _ eq_refl) as (c & X & Y). exact (numeral_fun _ _ _ X Y).
    + destruct (HH 9 _ _ eq_refl) as (c & X & Y). refine (address_fun _ _ c _ _ X Y); [rewrite Rm|rewrite Rm']; apply bytes_at_length.
    + destruct (HH 10 _ _ eq_refl) as (c & X & Y). refine (address_fun _ _ c _ _ X Y); [rewrite Rm|rewrite Rm']; apply bytes_at_length.
    + unfold interface. rewrite !be_big. destruct (HH 11 _ _ eq_refl) as (c & X & Y). exact (numeral_fun _ _ _ X Y).
    + f_equal. unfold cookie. rewrite !le_little. destruct (HH 12 _ _ eq_refl) as (c & X & Y). exact (hex_fun _ _ _ X Y).
  - exfalso. destruct HN as [_ HN]. discriminate (HN eq_refl).
  - exfalso. destruct HN as [HN _]. discriminate (HN eq_refl).
  - exact I.
Qed.
Lemma same_rows ss : forall ss' rows, Forall well_formed ss -> Forall well_formed ss' -> Forall2 shown_in ss rows -> Forall2 shown_in ss' rows -> Forall2 same_contents ss ss'.
Proof.
  induction ss as [|s ss IH]; intros ss' rows W W' A B; inversion A; subst; inversion B; subst; [constructor|].
  inversion W; subst. inversion W'; subst. constructor; [eapply same_row; eassumption|eapply IH; eassumption].
Qed.

(** ** What decodes is well formed *)
Lemma decoded_formed ar s : decoded ar s -> well_formed s.
Proof.
  intros (_ & Ei & E1 & E2 & E3 & _ & _ & _ & E7 & _ & E9 & _ & _ & E16 & _).
  assert (K : forall tb o t, o = attr_or ar t None (fun raw => Some (read_table tb raw)) -> has_fields tb o).
  { intros tb o t -> v E. unfold attr_or in E. destruct (attr ar t) as [raw|]; [|discriminate E]. injection E as <-. exists raw. reflexivity. }
  split; [exact (K _ _ _ E2)|]. split; [exact (K _ _ _ E1)|]. split; [exact (K _ _ _ E7)|]. split; [exact (K _ _ _ E3)|]. split; [exact (K _ _ _ E9)|]. split; [exact (K _ _ _ E16)|].
  intros m Em. rewrite Ei in Em. destruct (ar_raw ar) as [raw|]; [|discriminate Em]. injection Em as <-. exists raw. reflexivity.
Qed.
Lemma expected_structure pre k tb f : In (pre, k, tb) kernel_structures -> In f tb ->
  exists sel, In ((pre ++ fst (fst (fst f)))%string, field_cell sel (fst (fst (fst f)))) expected_columns /\ NoDup (map (fun g : field_spec => fst (fst (fst g))) tb) /\
    forall ar s, decoded ar s -> sel s = attr_or ar k None (fun raw => Some (read_table tb raw)).
Proof.
  assert (K : forall sel, In f tb -> In ((pre ++ fst (fst (fst f)))%string, field_cell sel (fst (fst (fst f)))) (structure_columns pre sel tb)).
  { intros sel Hf. exact (in_map (fun g : field_spec => ((pre ++ fst (fst (fst g)))%string, field_cell sel (fst (fst (fst g))))) tb f Hf). }
  intros Hp Hf. unfold kernel_structures in Hp. cbn [In] in Hp. rewrite expected_eq.
  destruct Hp as [E|[E|[E|[E|[E|[E|[]]]]]]]; injection E as <- <- <-.
  - exists sn_tcp. split; [apply in_or_app; right; apply in_or_app; left; apply K, Hf|]. split; [apply nd; vm_compute; reflexivity|]. intros ar s D. apply D.
  - exists sn_mem. split; [apply in_or_app; right; apply in_or_app; right; apply in_or_app; left; apply K, Hf|]. split; [apply nd; vm_compute; reflexivity|]. intros ar s D. apply D.
  - exists sn_skmem. split; [do 3 (apply in_or_app; right); apply in_or_app; left; apply K, Hf|]. split; [apply nd; vm_compute; reflexivity|]. intros ar s D. apply D.
  - exists sn_vegas. split; [do 4 (apply in_or_app; right); apply in_or_app; left; apply K, Hf|]. split; [apply nd; vm_compute; reflexivity|]. intros ar s D. apply D.
  - exists sn_dctcp. split; [do 5 (apply in_or_app; right); apply in_or_app; left; apply K, Hf|]. split; [apply nd; vm_compute; reflexivity|]. intros ar s D. apply D.
  - exists sn_bbr. split; [do 6 (apply in_or_app; right); apply K, Hf|]. split; [apply nd; vm_compute; reflexivity|]. intros ar s D. apply D.
Qed.
Lemma Forall2_nth {A B} (P : A -> B -> Prop) l k : Forall2 P l k -> forall i a, nth_error l i = Some a -> exists b, nth_error k i = Some b /\ P a b.
Proof. induction 1 as [|a b l k H F IH]; intros i x N; [destruct i; discriminate N|]. destruct i as [|i]; [injection N as <-; exists b; split; [reflexivity|exact H]|]. apply IH, N. Qed.
Lemma kernel_cell ar s l pre k tb f : decoded ar s -> shown_in s l -> In (pre, k, tb) kernel_structures -> In f tb ->
  exists i c, nth_error actual_header i = Some (str (actual_name (pre ++ fst (fst (fst f))))) /\ nth_error l i = Some c /\
    match attr ar k with None => c = [] | Some raw => integer_text c (held raw f) end.
Proof.
  intros D S Hp Hf. destruct (expected_structure pre k tb f Hp Hf) as (sel & I & Nd & E). specialize (E ar s D).
  apply In_nth_error in I as (i & Hi). destruct (Forall2_nth _ _ _ S i _ Hi) as (c & Hc & P). cbn [snd] in P.
  exists i, c. split; [exact (map_nth_error (fun col => str (actual_name (fst col))) i expected_columns Hi)|]. split; [exact Hc|].
  unfold field_cell in P. rewrite E in P. unfold attr_or in P. destruct (attr ar k) as [raw|]; [|exact P]. destruct P as (z & Iz & Tz).
  assert (J : In (read_field raw f) (read_table tb raw)) by (apply in_map; exact Hf). destruct f as [[[n o] w] sg]. cbn [fst] in *. cbn [read_field] in J.
  assert (Q : VInt z = VInt (held raw (n, o, w, sg))) by (eapply fst_in_unique; [|exact Iz|exact J]; rewrite table_names; exact Nd). injection Q as ->. exact Tz.
Qed.
