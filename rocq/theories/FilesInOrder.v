(** Facts for C77: the files of a connection hold its records in order. *)
From stdpp Require Import gmap.
From Coq Require Import NArith ZArith Lia.
From Verif Require Import GoBase GoBaseFacts GoTime Netlink SpecNetlink SpecCompare Cache SpecCache Saver SpecSaver SpecDisk SpecHistory
  CompareFacts SaverSteps SaverFiles SaverJobs SaverBlocks SaverRuns SaverCounts SaverHistory DiskFacts.

Lemma files_of_app P k l1 l2 : files_of P k (l1 ++ l2) = files_of P k l1 ++ files_of P k l2.
Proof. apply omap_app. Qed.
Lemma files_of_in P k l wr md : (wr, md) ∈ files_of P k l <-> AHeader wr md ∈ l /\ md_uuid md = from_cookie P k.
Proof.
  unfold files_of. rewrite elem_of_list_omap. split.
  - intros (a & I & E). destruct a; try discriminate E. destruct (bytes_eqb _ _) eqn:B; [|discriminate E]. injection E as -> ->. split; [exact I|]. by apply bytes_eqb_eq.
  - intros (I & U). exists (AHeader wr md). split; [exact I|]. rewrite U. by rewrite (proj2 (bytes_eqb_eq _ _) eq_refl).
Qed.
Lemma of_connection_app k l1 l2 : of_connection k (l1 ++ l2) = of_connection k l1 ++ of_connection k l2.
Proof. apply filter_app. Qed.
Lemma of_connection_one k r : of_connection k [r] = if decide (rec_cookie r = k) then [r] else [].
Proof. unfold of_connection. destruct (decide (rec_cookie r = k)) as [E|E]; [by rewrite filter_cons_True by exact E|by rewrite filter_cons_False by exact E]. Qed.
Lemma openings_app l1 l2 : openings (l1 ++ l2) = openings l1 ++ openings l2.
Proof. apply omap_app. Qed.

Section Order.
Variables (w : world) (cf : config).
Let P := uuid_prefix w.

Definition hinv (c : gmap N conn * nat * list action) : Prop :=
  let '(m, n, l) := c in
  (forall k, is_Some (m !! k) -> k ∈ openings l) /\
  forall k, (k < two64)%N ->
    in_files l (files_of P k l) = of_connection k (queued l) /\
    NoDup (files_of P k l).*1 /\
    (forall c wr, m !! k = Some c -> cn_writer c = Some wr -> exists fs md, files_of P k l = fs ++ [(wr, md)]) /\
    (k ∉ openings l -> files_of P k l = []) /\
    (NoDup (openings l) -> map (fun f => md_seq f.2) (files_of P k l) = map Z.of_nat (seq 0 (length (files_of P k l))) /\
      forall c, m !! k = Some c -> cn_seq c = length (files_of P k l)).

(** An action that is about no file *)
Lemma in_files_quiet l a fs : (forall wr, about wr a = false) -> in_files (l ++ [a]) fs = in_files l fs.
Proof.
  intros Ha. unfold in_files. f_equal. apply map_ext. intros f. rewrite file_actions_app. cbn. rewrite Ha. by rewrite app_nil_r.
Qed.
Lemma files_of_quiet k l a : (forall wr md, a <> AHeader wr md) -> files_of P k (l ++ [a]) = files_of P k l.
Proof. intros Ha. rewrite files_of_app. destruct a; try (cbn; by rewrite app_nil_r). by destruct (Ha w0 md). Qed.
Lemma openings_quiet l a : (forall t k id, a <> AOpen t k id) -> openings (l ++ [a]) = openings l.
Proof. intros Ha. rewrite openings_app. destruct a; try (cbn; by rewrite app_nil_r). by destruct (Ha t k id). Qed.
Lemma queued_quiet l a : (forall q m wr, a <> ASend q (Some m) wr) -> queued (l ++ [a]) = queued l.
Proof. intros Ha. rewrite queued_app. destruct a as [| | | | | | | |q [m|] wr| | | | | | | |]; try (cbn; by rewrite app_nil_r). by destruct (Ha q m wr). Qed.
Lemma in_files_same l e fs : (forall f, f ∈ fs -> queued (file_actions f.1 e) = []) -> in_files (l ++ e) fs = in_files l fs.
Proof.
  intros H. unfold in_files. f_equal. apply map_ext_in. intros f I. rewrite file_actions_app, queued_app, H; [by rewrite app_nil_r|by apply elem_of_list_In].
Qed.

(** The owner of a file *)
Lemma owner m n l wr md k k' c : finv w cf (m, n, l) -> m !! k = Some c -> cn_writer c = Some wr -> (k' < two64)%N -> (wr, md) ∈ files_of P k' l -> k = k'.
Proof.
  intros (_ & H2 & _ & H4) Hk Hw L I. apply files_of_in in I as [I U].
  destruct (H2 _ _ _ Hk Hw) as (_ & md' & recs & path & E & U' & _).
  assert (J : AHeader wr md ∈ file_actions wr l) by (unfold file_actions; apply elem_of_list_In, List.filter_In; split; [by apply elem_of_list_In|cbn; apply Nat.eqb_refl]).
  rewrite E in J. unfold written in J. cbn [app] in J. apply elem_of_cons in J as [X|J]; [discriminate X|]. apply elem_of_cons in J as [X|J].
  - injection X as ->. apply (from_cookie_inj P); [by eapply H4|exact L|]. unfold P in *. congruence.
  - rewrite app_nil_r in J. apply elem_of_list_In, in_map_iff in J as (? & X & _). discriminate X.
Qed.
Lemma fresh_file m n l k : finv w cf (m, n, l) -> n ∉ (files_of P k l).*1.
Proof.
  intros (H1 & _) I. apply elem_of_list_fmap in I as ([wr md] & -> & I). cbn in *. apply files_of_in in I as [I _].
  assert (J : AHeader wr md ∈ file_actions wr l) by (unfold file_actions; apply elem_of_list_In, List.filter_In; split; [by apply elem_of_list_In|cbn; apply Nat.eqb_refl]).
  rewrite H1 in J by lia. by apply elem_of_nil in J.
Qed.

Lemma hinv_step c c' : cstep w cf c c' -> finv w cf c -> hinv c -> hinv c'.
Proof.
  intros S. destruct S as
    [m n l a Ha|m n l k id t e Hk H0 Hlt Hid Hn|m n l k c wr t Hk Hw Hn He|m n l k c t dp t' Hk Hw Hn Hdp
    |m n l k c wr msg Hk Hw Hu Hck Ht|m n l k t|m n l k c wr Hk Hw Hcl]; intros Fi (HO & HI).
  - assert (E1 : openings (l ++ [a]) = openings l) by (apply openings_quiet; intros ? ? ? ->; discriminate Ha).
    split; [rewrite E1; exact HO|]. intros k Lk. rewrite E1, files_of_quiet by (intros ? ? ->; discriminate Ha).
    rewrite in_files_quiet by (intros; by apply neutral_about). rewrite queued_quiet by (intros ? ? ? ->; discriminate Ha). apply HI, Lk.
  - split.
    { intros k' Hs. rewrite openings_app. apply elem_of_app. destruct (decide (k' = k)) as [->|Ne]; [right; by left|]. left. apply HO. by rewrite lookup_insert_ne in Hs by congruence. }
    intros k' Lk. rewrite files_of_quiet, in_files_quiet, queued_quiet by done. destruct (HI k' Lk) as (A & B & C & D & E). split; [exact A|]. split; [exact B|].
    split; [|split].
    + intros c' wr Hk' Hw. apply lookup_insert_Some in Hk' as [[<- <-]|[Hne Hk']]; [discriminate Hw|]. eauto.
    + intros Ni. apply D. intros I. apply Ni. rewrite openings_app. apply elem_of_app. by left.
    + intros Nd. rewrite openings_app in Nd. apply NoDup_app in Nd as (Nd & Nx & _). destruct (E Nd) as [E1 E2]. split; [exact E1|].
      intros c' Hk'. apply lookup_insert_Some in Hk' as [[<- <-]|[Hne Hk']]; [|by apply E2]. cbn [cn_seq].
      rewrite D; [reflexivity|]. intros I. apply (Nx k I). by left.
  - split.
    { intros k' Hs. rewrite openings_quiet by done. apply HO. destruct (decide (k' = k)) as [->|Ne]; [by exists c|by rewrite lookup_insert_ne in Hs by congruence]. }
    intros k' Lk. rewrite files_of_quiet, queued_quiet, openings_quiet by done. destruct (HI k' Lk) as (A & B & C & D & E).
    split. { rewrite in_files_same; [exact A|]. intros f _. rewrite fa_send. by destruct (Nat.eqb wr f.1). }
    split; [exact B|]. split; [|split; [exact D|]].
    + intros c' wr' Hk' Hw'. apply lookup_insert_Some in Hk' as [[<- <-]|[Hne Hk']]; [discriminate Hw'|]. eauto.
    + intros Nd. destruct (E Nd) as [E1 E2]. split; [exact E1|]. intros c' Hk'. apply lookup_insert_Some in Hk' as [[<- <-]|[Hne Hk']]; [|by apply E2]. cbn [cn_seq set_writer]. by apply E2.
  - pose proof Fi as (F1 & F2 & F3 & F4). destruct (F4 _ _ Hk) as (Lk0 & H0 & Hid). rewrite Hid.
    set (path := file_path _ _ _). set (md := mkmeta _ _ _). set (e := [AMkdir t' dp; ACreate n path; AHeader n md; ANewFile]).
    assert (EO : openings (l ++ e) = openings l) by (rewrite openings_app; cbn; by rewrite app_nil_r).
    assert (EQ : queued (l ++ e) = queued l) by (rewrite queued_app; cbn; by rewrite app_nil_r).
    assert (EF : forall k', (k' < two64)%N -> files_of P k' (l ++ e) = files_of P k' l ++ (if decide (k' = k) then [(n, md)] else [])).
    { intros k' Lk. rewrite files_of_app. f_equal. cbn. destruct (decide (k' = k)) as [->|Ne].
      - fold P. by rewrite (proj2 (bytes_eqb_eq _ _) eq_refl).
      - fold P. destruct (bytes_eqb (from_cookie P k) (from_cookie P k')) eqn:B; [|reflexivity]. apply bytes_eqb_eq in B. exfalso. apply Ne. symmetry. by apply (from_cookie_inj P). }
    assert (Fq : forall x : nat, queued (file_actions x e) = []) by (intros x; unfold e; cbn; by destruct (Nat.eqb n x)).
    split.
    { intros k' Hs. rewrite EO. apply HO. destruct (decide (k' = k)) as [->|Ne]; [by exists c|by rewrite lookup_insert_ne in Hs by congruence]. }
    intros k' Lk. rewrite EO, EQ, (EF k' Lk). destruct (HI k' Lk) as (A & B & C & D & E).
    destruct (decide (k' = k)) as [->|Ne].
    + split; [|split; [|split; [|split]]].
      * rewrite in_files_same by (intros; apply Fq). unfold in_files. rewrite map_app, concat_app. cbn. rewrite F1 by lia. rewrite app_nil_r. exact A.
      * rewrite fmap_app. apply NoDup_app. split; [exact B|]. split; [|cbn; apply NoDup_singleton]. intros x Ix J. cbn in J. apply elem_of_list_singleton in J as ->.
        by apply (fresh_file m n l k Fi).
      * intros c' wr' Hk' Hw'. rewrite lookup_insert in Hk'. injection Hk' as <-. cbn in Hw'. injection Hw' as <-. eauto.
      * intros Ni. destruct Ni. apply HO. by exists c.
      * intros Nd. destruct (E Nd) as [E1 E2]. specialize (E2 c Hk). rewrite map_app, E1, app_length. cbn [length map]. rewrite Nat.add_1_r, seq_S, map_app. cbn [map]. split.
        -- cbn. f_equal. f_equal. lia.
        -- intros c' Hk'. rewrite lookup_insert in Hk'. injection Hk' as <-. cbn [cn_seq]. lia.
    + rewrite app_nil_r. split; [rewrite in_files_same by (intros; apply Fq); exact A|]. split; [exact B|]. split; [|split; [exact D|]].
      * intros c' wr' Hk' Hw'. rewrite lookup_insert_ne in Hk' by congruence. eauto.
      * intros Nd. destruct (E Nd) as [E1 E2]. split; [exact E1|]. intros c' Hk'. rewrite lookup_insert_ne in Hk' by congruence. by apply E2.
  - split; [intros k' Hs; rewrite openings_quiet by done; by apply HO|].
    intros k' Lk. rewrite files_of_quiet, openings_quiet by done. destruct (HI k' Lk) as (A & B & C & D & E).
    split; [|by auto]. rewrite queued_app, of_connection_app. change (queued [ASend (qof cf k) (Some msg) wr]) with [c_ar msg]. rewrite of_connection_one, <- A.
    destruct (decide (k' = k)) as [->|Ne].
    + destruct (C c wr Hk Hw) as (fs & md & EF). rewrite EF in B |- *. rewrite fmap_app in B. apply NoDup_app in B as (_ & B & _).
      unfold in_files. rewrite !map_app, !concat_app. cbn [map concat fst]. rewrite !app_nil_r. rewrite file_actions_app, fa_send, Nat.eqb_refl, queued_app.
      rewrite <- !app_assoc. f_equal.
      * f_equal. apply map_ext_in. intros f If. rewrite file_actions_app, fa_send. destruct (Nat.eqb_spec wr f.1) as [Ew|_]; [|by rewrite app_nil_r].
        exfalso. apply elem_of_list_In in If. apply (B f.1); [by apply elem_of_list_fmap_1|rewrite <- Ew; cbn; by left].
      * f_equal. change (rec_cookie (c_ar msg) = k) in Hck. by rewrite decide_True by exact Hck.
    + rewrite in_files_same.
      * change (rec_cookie (c_ar msg) = k) in Hck. rewrite decide_False by congruence. by rewrite app_nil_r.
      * intros [wr' md] If. cbn [fst]. rewrite fa_send. destruct (Nat.eqb_spec wr wr') as [<-|_]; [|reflexivity]. exfalso. apply Ne. symmetry. by apply (owner m n l wr md k k' c Fi).
  - split; [intros k' Hs; rewrite openings_quiet by done; by apply HO|].
    intros k' Lk. rewrite files_of_quiet, in_files_quiet, queued_quiet, openings_quiet by done. by apply HI.
  - split.
    { intros k' Hs. rewrite openings_quiet by done. apply HO. destruct Hs as [x Hx]. apply lookup_delete_Some in Hx as [_ Hx]. eauto. }
    intros k' Lk. rewrite files_of_quiet, queued_quiet, openings_quiet by done. destruct (HI k' Lk) as (A & B & C & D & E).
    split. { rewrite in_files_same; [exact A|]. intros f _. rewrite fa_send. by destruct (Nat.eqb wr f.1). }
    split; [exact B|]. split; [|split; [exact D|]].
    + intros c' wr' Hk' Hw'. apply lookup_delete_Some in Hk' as [_ Hk']. eauto.
    + intros Nd. destruct (E Nd) as [E1 E2]. split; [exact E1|]. intros c' Hk'. apply lookup_delete_Some in Hk' as [_ Hk']. by apply E2.
Qed.

Lemma reached_hinv s : reached w cf s -> hinv (core s).
Proof.
  intros H. unfold reached, csteps in H.
  assert (G : forall c c', rtc (cstep w cf) c c' -> finv w cf c /\ hinv c -> hinv c').
  { induction 1 as [|c1 c2 c3 Hs _ IH]; [by intros [_ ?]|]. intros (Hf & Hh). apply IH. split; [by eapply finv_step|by eapply hinv_step]. }
  eapply G; [exact H|]. split; [apply finv_init|]. split.
  - intros k [x Hx]. cbn in Hx. by rewrite lookup_empty in Hx.
  - intros k _. split; [reflexivity|]. split; [constructor|]. split; [intros c wr Hk; cbn in Hk; by rewrite lookup_empty in Hk|].
    split; [reflexivity|]. intros _. split; [reflexivity|]. intros c Hk. cbn in Hk. by rewrite lookup_empty in Hk.
Qed.

(** Nothing is saved when the saver ends. *)
Lemma close_queued s : queued (s_log (close w cf s)) = queued (s_log s).
Proof.
  assert (E : forall k s, queued (s_log (end_conn w cf k s)) = queued (s_log s)).
  { intros k s0. unfold end_conn. cbn [now]. destruct (Nat.eqb _ _); [|destruct (s_conns _ !! k) as [c|]; [destruct (cn_writer c)|]];
      cbn [s_log crash emit with_conns with_pos s_conns]; rewrite !queued_quiet by done; reflexivity. }
  assert (F : forall l s, queued (s_log (foldl (fun s k => end_conn_alive w cf k s) s l)) = queued (s_log s)).
  { induction l as [|k l IH]; intros s0; [reflexivity|]. cbn [foldl]. rewrite IH. unfold end_conn_alive. destruct (s_dead s0); [reflexivity|apply E]. }
  unfold close. destruct (s_dead s); [reflexivity|]. cbn [range_keys]. unfold close_chans. match goal with |- context [s_dead ?x] => set (s1 := x) end.
  assert (Q : queued (s_log s1) = queued (s_log s)) by (unfold s1; rewrite F; reflexivity). destruct (s_dead s1); [exact Q|].
  cbn [emit s_log]. rewrite queued_quiet by done. rewrite <- Q. generalize (seq 0 (nmarsh cf)). clearbody s1. clear Q. intros l. revert s1.
  induction l as [|q l IH]; intros s1; [reflexivity|]. cbn [foldl]. rewrite IH. cbn [emit s_log]. by rewrite queued_quiet.
Qed.

Lemma recorded_queued : io_ok w -> 1 <= nmarsh cf -> fair_order w -> forall bs, Forall (parses cf) bs -> all_comparable cf bs ->
  recorded cf bs (queued (s_log (message_saver_loop w cf bs))).
Proof.
  intros Hio Hn Hf bs Hp Hc. unfold message_saver_loop. rewrite close_queued. revert Hp Hc. induction bs as [|b bs IH] using rev_ind; intros Hp Hc; [constructor|].
  destruct (block_saves w cf Hio Hn Hf bs b Hp Hc) as (e & L & T). rewrite L, queued_app. constructor; [|exact T].
  apply IH; [by apply Forall_app in Hp as [Hp _]|by apply Forall_app in Hc as [Hc _]].
Qed.
(** In every environment nothing more is queued. *)
Lemma recorded_sublist : 1 <= nmarsh cf -> fair_order w -> forall bs, Forall (parses cf) bs -> all_comparable cf bs ->
  exists rs, recorded cf bs rs /\ queued (s_log (message_saver_loop w cf bs)) `sublist_of` rs.
Proof.
  intros Hn Hf bs Hp Hc. unfold message_saver_loop. rewrite close_queued. revert Hp Hc. induction bs as [|b bs IH] using rev_ind; intros Hp Hc; [exists []; split; [constructor|reflexivity]|].
  destruct IH as (rs & R & S); [by apply Forall_app in Hp as [Hp _]|by apply Forall_app in Hc as [Hc _]|].
  destruct (block_sublist w cf Hf bs b (survives w cf Hn Hf _ Hp Hc)) as (e & L & T). rewrite L, queued_app.
  exists (rs ++ saves (last_accepted cf bs) [] (accepted cf b)). split; [|by apply sublist_app]. constructor; [exact R|].
  apply Forall_app in Hc as [Hc Hb]. apply Forall_one in Hb. apply to_save_saves; [|exact Hb].
  unfold last_accepted. destruct (last bs) as [b'|] eqn:E; [|constructor]. apply last_Some in E as [bs' ->].
  apply Forall_app in Hc as [_ Hc]. by apply Forall_one in Hc.
Qed.
(** The records that are to be saved are determined. *)
Lemma to_save_det P0 : forall l C a b, to_save P0 C l a -> to_save P0 C l b -> a = b.
Proof.
  induction l as [|r l IH]; intros C a b A B; inversion A; subst; inversion B; subst; try congruence; try (f_equal; by eapply IH); try (by eapply IH).
  all: exfalso; try congruence; match goal with H : reference _ _ _ = Some ?x, H' : reference _ _ _ = Some ?y |- _ => assert (x = y) by congruence; subst; tauto end.
Qed.
Lemma recorded_det bs a b : recorded cf bs a -> recorded cf bs b -> a = b.
Proof.
  intros A. revert b. induction A as [|bs x rs e A IH T]; intros b B.
  - inversion B as [|? ? ? ? ? ? E]; [reflexivity|]. by destruct bs.
  - inversion B as [E|bs' x' rs' e' B' T' E]; [by destruct bs|]. apply app_inj_tail in E as [-> ->]. rewrite (IH _ B'). f_equal. by eapply to_save_det.
Qed.
End Order.
