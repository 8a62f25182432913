(** The files on disk: every step keeps the files of the writers apart as long as
    their paths differ. *)
From stdpp Require Import gmap relations.
From Coq Require Import NArith ZArith Lia.
From Verif Require Import GoBase GoBaseFacts GoTime Netlink SpecNetlink SpecCompare RecordFacts Cache Saver SpecSaver SpecSystem SaverSteps SaverFiles
  System SystemInv SystemFiles SystemHidden SystemRefine RaceFacts Disk SpecDisk.

(** * The paths of the saver's log *)
Section Opened.
Variables (w : world) (cf : config).
Notation P := (uuid_prefix w).
Definition oinv (c : gmap N conn * nat * list action) : Prop :=
  let '(m, n, l) := c in
  (forall k c, m !! k = Some c -> AOpen (cn_start c) k (cn_id c) ∈ l) /\
  (forall t k id, AOpen t k id ∈ l -> (k < two64)%N) /\
  (forall l1 wr p l2, l = l1 ++ ACreate wr p :: l2 -> exists k j t id now, (k < two64)%N /\ AOpen t k id ∈ l1 /\ ANow now ∈ l1 /\
    p = file_path (format_date (if (0 <? j)%nat then now else t)) (from_cookie P k) j).
Lemma last_now_in l t : last_now l = Some t -> ANow t ∈ l.
Proof.
  unfold last_now. intros H. apply last_Some in H as (l' & H).
  assert (I : t ∈ omap (fun a => match a with ANow t => Some t | _ => None end) l) by (rewrite H; apply elem_of_app; right; apply elem_of_list_here).
  apply elem_of_list_omap in I as (a & I & E). destruct a; try discriminate E. injection E as ->. exact I.
Qed.
Lemma oinv_snoc m m' n n' l e : (forall wr p, ACreate wr p ∉ e) -> (forall t k id, AOpen t k id ∈ e -> (k < two64)%N) ->
  (forall k c, m' !! k = Some c -> (exists c', m !! k = Some c' /\ cn_start c' = cn_start c /\ cn_id c' = cn_id c) \/ AOpen (cn_start c) k (cn_id c) ∈ e) -> oinv (m, n, l) -> oinv (m', n', l ++ e).
Proof.
  intros Hc Ho Hm (A & B & C). split; [|split].
  - intros k c Hk. apply elem_of_app. destruct (Hm k c Hk) as [(c' & H & <- & <-)|H]; [left; by apply A | by right].
  - intros t k id H. apply elem_of_app in H as [H|H]; eauto.
  - intros l1 wr p l2 E. apply app_eq_inv in E as [(x & E1 & E2)|(x & E1 & E2)].
    + destruct x as [|y x]; cbn in E2; [destruct e as [|y e]; [discriminate E2|]; injection E2 as <- _; destruct (Hc wr p); apply elem_of_list_here|].
      injection E2 as <- ->. exact (C _ _ _ _ E1).
    + exfalso. apply (Hc wr p). rewrite E2. apply elem_of_app. right. apply elem_of_list_here.
Qed.
Lemma oinv_step c c' : cstep w cf c c' -> finv w cf c -> oinv c -> oinv c'.
Proof.
  intros S. destruct S as
    [m n l a Ha|m n l k id t e Hk H0 Hlt Hid Hn|m n l k c wr t Hk Hw Hn He|m n l k c t dp t' Hk Hw Hn Hdp
    |m n l k c wr msg Hk Hw Hu Hck Ht|m n l k t|m n l k c wr Hk Hw Hcl]; intros Inv NI.
  1, 2, 3, 5, 6, 7: eapply oinv_snoc; [| | |exact NI]; [intros wr0 p0 X; apply elem_of_list_singleton in X; subst; try discriminate X; done
    |intros t0 k0 id0 X; apply elem_of_list_singleton in X; subst; try discriminate X; try (injection X as -> -> ->); done|].
  - eauto.
  - intros k0 c0 E. destruct (decide (k0 = k)) as [->|Ne]; [right; rewrite lookup_insert in E; injection E as <-; apply elem_of_list_here | left; rewrite lookup_insert_ne in E by done; eauto].
  - intros k0 c0 E. left. destruct (decide (k0 = k)) as [->|Ne]; [rewrite lookup_insert in E; injection E as <-; eauto | rewrite lookup_insert_ne in E by done; eauto].
  - eauto.
  - eauto.
  - intros k0 c0 E. left. apply lookup_delete_Some in E as [_ E]. eauto.
  - destruct Inv as (_ & _ & _ & H4). destruct (H4 _ _ Hk) as (Hlt & H0 & Hid). destruct NI as (A & B & C). split; [|split].
    + intros k0 c0 E. apply elem_of_app. left. destruct (decide (k0 = k)) as [->|Ne]; [rewrite lookup_insert in E; injection E as <-; exact (A _ _ Hk) | rewrite lookup_insert_ne in E by done; by apply A].
    + intros t0 k0 id0 H. apply elem_of_app in H as [H|H]; [eauto|]. rewrite !elem_of_cons, elem_of_nil in H. intuition discriminate.
    + intros l1 wr p l2 E. apply app_eq_inv in E as [(x & E1 & E2)|(x & E1 & E2)].
      * destruct x as [|y x]; cbn in E2; [discriminate|]. injection E2 as <- ->. exact (C _ _ _ _ E1).
      * destruct x as [|y x]; cbn in E2; [discriminate|]. injection E2 as <- E2. destruct x as [|y x]; cbn in E2.
        -- injection E2 as <- <- <-. exists k, (cn_seq c), (cn_start c), (cn_id c), t. split; [done|]. subst l1. split; [apply elem_of_app; left; by apply A|].
           split; [apply elem_of_app; left; by apply last_now_in|]. by rewrite Hid, Hdp.
        -- injection E2 as <- E2. destruct x as [|y x]; cbn in E2; [discriminate|]. injection E2 as <- E2.
           destruct x as [|y x]; cbn in E2; [discriminate|]. injection E2 as <- E2. by destruct x.
Qed.
Lemma reached_oinv s : reached w cf s -> oinv (core s).
Proof.
  intros H. unfold reached, csteps in H.
  assert (G : forall c c', rtc (cstep w cf) c c' -> finv w cf c /\ oinv c -> finv w cf c' /\ oinv c').
  { induction 1 as [|c1 c2 c3 Hs _ IH]; [done|]. intros (Hf & Ho). apply IH. split; [by eapply finv_step|by eapply oinv_step]. }
  apply (G _ _ H). split; [apply finv_init|]. split; [by intros k c Hk|]. split; [intros t k id X; by apply elem_of_nil in X|].
  intros l1 wr p l2 E. cbn in E. by destruct l1.
Qed.
End Opened.

Lemma paths_in p l : p ∈ paths l <-> exists wr, ACreate wr p ∈ l.
Proof.
  unfold paths. rewrite elem_of_list_omap. split.
  - intros (a & I & E). destruct a; try discriminate E. injection E as ->. eauto.
  - intros (wr & I). exists (ACreate wr p). done.
Qed.
Lemma openings_in k l : k ∈ openings l <-> exists t id, AOpen t k id ∈ l.
Proof.
  unfold openings. rewrite elem_of_list_omap. split.
  - intros (a & I & E). destruct a; try discriminate E. injection E as ->. eauto.
  - intros (t & id & I). exists (AOpen t k id). done.
Qed.
Lemma paths_nodup l : (forall l1 wr1 p l2 wr2 l3, l <> l1 ++ ACreate wr1 p :: l2 ++ ACreate wr2 p :: l3) -> NoDup (paths l).
Proof.
  induction l as [|a l IH]; intros H; [constructor|]. assert (N : NoDup (paths l)).
  { apply IH. intros l1 wr1 p l2 wr2 l3 E. apply (H (a :: l1) wr1 p l2 wr2 l3). by rewrite E. }
  destruct a as [| | | |wr p| | | | | | | | | | | |]; try exact N. change (NoDup (p :: paths l)). constructor; [|exact N].
  intros I. apply paths_in in I as (wr' & I). apply elem_of_list_split in I as (l2 & l3 & ->). by apply (H [] wr p l2 wr' l3).
Qed.
Lemma paths_unique l wr wr' p : NoDup (paths l) -> ACreate wr p ∈ l -> ACreate wr' p ∈ l -> wr = wr'.
Proof.
  induction l as [|a l IH]; intros N H H'; [by apply elem_of_nil in H|].
  assert (D : forall x q, a = ACreate x q -> q ∉ paths l /\ NoDup (paths l)) by (intros x q ->; cbn in N; by apply NoDup_cons in N).
  assert (N' : NoDup (paths l)) by (destruct a; try exact N; by destruct (D _ _ eq_refl)).
  apply elem_of_cons in H, H'. destruct H as [<-|H], H' as [E'|H']; [by injection E' | | | by apply IH].
  - destruct (D _ _ eq_refl) as [F _]. destruct F. apply paths_in. eauto.
  - destruct (D _ _ (eq_sym E')) as [F _]. destruct F. apply paths_in. eauto.
Qed.
Lemma once_distinct w cf s : reached w cf s -> NoDup (openings (s_log s)) -> NoDup (paths (s_log s)).
Proof.
  intros R N. apply paths_nodup. intros l1 wr1 p l2 wr2 l3 E.
  destruct (same_path_reopened w cf s l1 wr1 wr2 p l2 l3 R E) as (t & k & id & dp & n & I & Ep).
  destruct (reached_oinv w cf s R) as (_ & B & C). destruct (C l1 wr1 p _ E) as (k' & j & t' & id' & now & L & I' & _ & Ep').
  assert (Lk : (k < two64)%N). { apply (B t k id). rewrite E. apply elem_of_app. right. apply elem_of_cons. right. apply elem_of_app. by left. }
  rewrite Ep in Ep'. apply file_path_inj in Ep' as (_ & <- & _); [|done..].
  rewrite E in N. unfold openings in N. rewrite omap_app in N. apply NoDup_app in N as (_ & N & _).
  apply (N k).
  - apply openings_in. eauto.
  - apply (openings_in k (ACreate wr1 p :: l2 ++ ACreate wr2 p :: l3)). exists t, id. apply elem_of_cons. right. apply elem_of_app. by left.
Qed.

(** * Steps *)
Definition kept (o o' : option file) : Prop :=
  match o, o' with
  | None, None => True
  | Some f, Some f' => f_path f' = f_path f /\ (f_open f = false -> f' = f) /\ (f_open f' = false -> f_data f' = f_data f)
  | _, _ => False
  end.
Lemma kept_refl o : kept o o.
Proof. destruct o; cbn; auto. Qed.
Lemma kept_put b o : kept o (SystemFiles.put b o).
Proof. destruct o as [f|]; cbn; [|done]. destruct (f_open f) eqn:E; cbn; auto. repeat split; auto; discriminate. Qed.
Lemma kept_shut o : kept o (SystemFiles.shut o).
Proof. destruct o as [f|]; cbn; [|done]. split; [done|]. split; [|done]. destruct f as [p d b]. cbn. by intros ->. Qed.
Lemma write_lookup wr wr' b fs : write wr' b fs !! wr = if Nat.eqb wr' wr then SystemFiles.put b (fs !! wr) else fs !! wr.
Proof. destruct (Nat.eqb_spec wr' wr) as [->|N]; [apply write_same | by apply write_other]. Qed.
Lemma kept_write wr wr' b fs : kept (fs !! wr) (write wr' b fs !! wr).
Proof. rewrite write_lookup. destruct (Nat.eqb wr' wr); [apply kept_put | apply kept_refl]. Qed.
Lemma kept_close wr wr' fs : kept (fs !! wr) (close_file wr' fs !! wr).
Proof.
  destruct (Nat.eq_dec wr' wr) as [->|N]; [rewrite close_same; apply kept_shut | rewrite close_other by done; apply kept_refl].
Qed.

Section Steps.
Variables (w : world) (cf : config) (cap : nat) (anon : bytes -> bytes) (line : archival -> bytes) (hline : metadata -> bytes) (z : bytes -> bytes).
Notation step := (step w cf cap anon line hline).
Notation dstep := (dstep w cf cap anon line hline z).
Definition creates (y y' : sys) (wr : nat) (p : bytes) : Prop :=
  s_log (y_saver y) !! y_pc y = Some (ACreate wr p) /\ y_pc y' = S (y_pc y).

Lemma exec_files a y y' : exec cap hline a y = Some y' ->
  (exists wr p, a = ACreate wr p /\ y_files y' = <[wr := mkfile p [] true]> (y_files y)) \/
  ((forall wr p, a <> ACreate wr p) /\ forall wr, kept (y_files y !! wr) (y_files y' !! wr)).
Proof.
  intros X. destruct a as [| | | |wr p| |wr md| |q msg wr| | | | | | |q|]; cbn [exec] in X.
  5: { left. apply (inj Some) in X. subst y'. exists wr, p. done. }
  all: right; split; [discriminate|]; intros wr0.
  all: try (apply (inj Some) in X; subst y'; apply kept_refl).
  - apply (inj Some) in X. subst y'. cbn. rewrite !write_lookup. destruct (Nat.eqb wr wr0); [rewrite put_put; apply kept_put | apply kept_refl].
  - destruct (y_marsh y !! q) as [m|]; [destruct (m_closed m); [|destruct (length (m_chan m) <? cap); [|discriminate X]]|];
      apply (inj Some) in X; subst y'; apply kept_refl.
  - destruct (y_marsh y !! q) as [m|]; [destruct (m_closed m)|]; apply (inj Some) in X; subst y'; apply kept_refl.
  - destruct (y_wg y); apply (inj Some) in X; subst y'; apply kept_refl.
Qed.
Lemma step_files y y' : step y y' ->
  (exists wr p, creates y y' wr p /\ y_files y' = <[wr := mkfile p [] true]> (y_files y)) \/
  ((forall wr p, ~ creates y y' wr p) /\ forall wr, kept (y_files y !! wr) (y_files y' !! wr)).
Proof using Type.
  clear z.
  assert (N : forall y y', y_pc y' = y_pc y -> forall wr p, ~ creates y y' wr p) by (intros a b E wr p [_ C]; lia).
  intros H. destruct H as [y j js view A E J V|y a y' A E X|y q m t ts A Q P C|y q m A Q P C L|y q m wr A Q P|y q m c wr raw A Q P X|y q m c wr e A Q P X|y q m c wr A Q P|y q m c b wr A Q P|y q m c wr A Q P].
  2: { apply exec_files in X as [(wr & p & -> & X)|[Na K]]; [left; exists wr, p; split; [split; [exact E | done] | exact X]|].
       right. split; [|exact K]. intros wr p [C _]. rewrite E in C. apply (inj Some) in C. exact (Na _ _ C). }
  3: destruct (y_wg y).
  all: right; split; [apply N; reflexivity|]; intros wr0; cbn; first [apply kept_refl | apply kept_close | apply kept_write].
Qed.
Lemma at_once_create y y' wr p k : creates y y' wr p -> at_once y y' k = create wr p k.
Proof. intros [E F]. unfold at_once. by rewrite E, F, Nat.eqb_refl. Qed.
Lemma at_once_other y y' k : (forall wr p, ~ creates y y' wr p) -> at_once y y' k = k.
Proof.
  intros N. unfold at_once. destruct (s_log (y_saver y) !! y_pc y) as [a|] eqn:E; [|done]. destruct a as [| | | |wr p| | | | | | | | | | | |]; try done.
  destruct (Nat.eqb_spec (y_pc y') (S (y_pc y))) as [F|_]; [|done]. by destruct (N wr p).
Qed.
Lemma put_same p c k : put p c k p = Some c.
Proof. unfold put. by rewrite bytes_eqb_refl. Qed.
Lemma put_other p q c k : q <> p -> put p c k q = k q.
Proof. intros N. unfold put. destruct (bytes_eqb q p) eqn:E; [|done]. by apply bytes_eqb_eq in E. Qed.
Lemma emits_same wr o k : emits wr o k wr = o.
Proof. unfold emits. by rewrite Nat.eqb_refl. Qed.
Lemma emits_other wr i o k : i <> wr -> emits wr o k i = k i.
Proof. intros N. unfold emits. by destruct (Nat.eqb_spec i wr). Qed.
Lemma overlay_end o x : overlay o (length o) x = o ++ x.
Proof. unfold overlay. rewrite firstn_all, Nat.sub_diag. cbn [repeat app]. rewrite skipn_all2 by lia. by rewrite app_nil_r. Qed.

Lemma dstep_sys s s' : dstep s s' -> s'.1 = s.1 \/ step s.1 s'.1.
Proof. intros [y y' k S C|y k wr f x F O]; [by right | by left]. Qed.
Lemma dsteps_sys s s' : rtc dstep s s' -> rtc step s.1 s'.1.
Proof. induction 1 as [|a b c H _ IH]; [apply rtc_refl|]. apply dstep_sys in H as [<-|H]; [exact IH | eapply rtc_l; eauto]. Qed.

(** The writer [wr] alone writes to the file at [p]. *)
Definition sole (wr : nat) (p : bytes) (s : sys * disk) : Prop :=
  (exists f, y_files s.1 !! wr = Some f /\ f_path f = p) /\ d_file s.2 p = Some (d_out s.2 wr) /\
  forall wr' f', wr' <> wr -> y_files s.1 !! wr' = Some f' -> f_path f' = p -> f_open f' = false.
Lemma sole_begins y k y' k' wr p : dstep (y, k) (y', k') -> creates y y' wr p ->
  (forall wr' f, y_files y !! wr' = Some f -> f_path f = p -> f_open f = false) -> sole wr p (y', k').
Proof.
  intros H C A. inversion H as [y0 y1 k0 S Cl|y0 k0 wr0 f x F O]; subst; [|destruct C as [_ C]; lia].
  destruct (step_files _ _ S) as [(wr1 & p1 & C1 & E)|[N _]]; [|by destruct (N wr p)].
  assert (wr1 = wr /\ p1 = p) as [-> ->] by (destruct C1 as [C1 _], C as [C _]; rewrite C in C1; injection C1 as -> ->; done).
  rewrite (at_once_create _ _ _ _ _ C). split; [|split].
  - exists (mkfile p [] true). cbn. by rewrite E, lookup_insert.
  - cbn. by rewrite put_same, emits_same.
  - cbn. intros wr' f' Ne F. rewrite E, lookup_insert_ne in F by done. by apply A with wr'.
Qed.
Lemma sole_step wr p s s' : dstep s s' -> (forall wr', ~ creates s.1 s'.1 wr' p) -> (forall wr' q, creates s.1 s'.1 wr' q -> y_files s.1 !! wr' = None) ->
  sole wr p s -> sole wr p s'.
Proof.
  intros H Nc Fr ((f & F & Pf) & D & A). destruct H as [y y' k S Cl|y k wr0 f0 x F0 O0]; cbn [fst snd] in *.
  - destruct (step_files _ _ S) as [(wr1 & p1 & C1 & E)|[N K]].
    + rewrite (at_once_create _ _ _ _ _ C1). pose proof (Fr _ _ C1) as Fw. assert (wr <> wr1) by congruence. assert (p <> p1) by (intros ->; by destruct (Nc wr1)).
      split; [|split]; cbn [fst snd].
      * exists f. by rewrite E, lookup_insert_ne.
      * cbn. by rewrite put_other, emits_other.
      * intros wr' f' Ne. rewrite E. destruct (decide (wr' = wr1)) as [->|Ne1]; [rewrite lookup_insert; intros [= <-] Ep; cbn in Ep; congruence|].
        rewrite lookup_insert_ne by done. eauto.
    + rewrite at_once_other by exact N. split; [|split]; cbn [fst snd].
      * pose proof (K wr) as X. rewrite F in X. destruct (y_files y' !! wr) as [f'|]; [|done]. cbn in X. exists f'. split; [done|]. destruct X as [-> _]. exact Pf.
      * exact D.
      * intros wr' f' Ne F' Ep. pose proof (K wr') as X. rewrite F' in X. destruct (y_files y !! wr') as [f1|] eqn:F1; [|done]. destruct X as (P1 & P2 & _).
        assert (O : f_open f1 = false) by (apply (A wr'); congruence). by rewrite (P2 O).
  - split; [|split]; cbn [fst snd]; [by exists f| |exact A].
    destruct (decide (wr0 = wr)) as [->|Ne].
    + rewrite F in F0. injection F0 as <-. rewrite Pf. cbn. by rewrite put_same, emits_same, D, overlay_end.
    + assert (f_path f0 <> p). { intros E. rewrite (A wr0 f0 Ne F0 E) in O0. discriminate. }
      cbn. by rewrite put_other, emits_other.
Qed.

(** * Whole runs *)
Hypothesis Hlen : forall x, length (anon x) = length x.
Hypothesis Hn : 1 <= nmarsh cf.
Variables (bs : list block) (k0 : bytes -> option bytes).
Notation reachable := (disk_reachable w cf cap anon line hline z bs k0).
Lemma disk_sys s : reachable s -> System.reachable w cf cap anon line hline bs s.1.
Proof. intros H. exact (dsteps_sys _ _ H). Qed.
Lemma fresh s s' : reachable s -> dstep s s' -> forall wr p, creates s.1 s'.1 wr p -> y_files s.1 !! wr = None.
Proof. intros R _ wr p [C _]. by apply (proj1 (saver_writer_new w cf cap anon line hline Hlen Hn bs s.1 (disk_sys s R)) wr p). Qed.
Lemma files_persist s s' : reachable s -> rtc dstep s s' -> forall wr f, y_files s.1 !! wr = Some f ->
  exists f', y_files s'.1 !! wr = Some f' /\ f_path f' = f_path f.
Proof.
  intros R H. revert R. induction H as [s|s s1 s2 H _ IH]; intros R wr f F; [eauto|].
  assert (R1 : reachable s1) by (eapply rtc_r; [exact R | exact H]).
  assert (X : exists f1, y_files s1.1 !! wr = Some f1 /\ f_path f1 = f_path f).
  { pose proof (fresh s s1 R H) as Fr. destruct H as [y y' k S Cl|y k wr0 f0 x F0 O0]; cbn [fst] in *; [|eauto].
    destruct (step_files _ _ S) as [(wr1 & p1 & C1 & E)|[N K]].
    - assert (wr <> wr1) by (pose proof (Fr _ _ C1); congruence). exists f. by rewrite E, lookup_insert_ne.
    - pose proof (K wr) as X. rewrite F in X. destruct (y_files y' !! wr) as [f1|]; [|done]. exists f1. split; [done|]. by destruct X as [-> _]. }
  destruct X as (f1 & F1 & P1). destruct (IH R1 wr f1 F1) as (f2 & F2 & P2). exists f2. split; [done | congruence].
Qed.
(** A path that is used again, when nobody writes to it any more. *)
Lemma reused y k y1 k1 s2 wr p : reachable (y, k) -> dstep (y, k) (y1, k1) -> creates y y1 wr p ->
  (forall wr' f, y_files y !! wr' = Some f -> f_path f = p -> f_open f = false) ->
  rtc dstep (y1, k1) s2 -> (forall wr' f, y_files s2.1 !! wr' = Some f -> f_path f = p -> wr' = wr \/ is_Some (y_files y !! wr')) ->
  sole wr p s2.
Proof.
  intros R H C A H2 Only. pose proof (sole_begins _ _ _ _ _ _ H C A) as S1.
  assert (R1 : reachable (y1, k1)) by (eapply rtc_r; [exact R | exact H]).
  assert (D1 : forall i, is_Some (y_files y !! i) -> is_Some (y_files y1 !! i)).
  { intros i (f & F). destruct (files_persist _ _ R (rtc_once _ _ H) i f F) as (f' & F' & _). exists f'. exact F'. }
  assert (Dw : is_Some (y_files y1 !! wr)) by (destruct S1 as ((f & F & _) & _); exists f; exact F).
  set (s1 := (y1, k1)) in *. assert (G : forall i, i = wr \/ is_Some (y_files y !! i) -> is_Some (y_files s1.1 !! i)) by (intros i [->|X]; [exact Dw | by apply D1]).
  clearbody s1. clear H C k1 D1 Dw y1. induction H2 as [s|s s3 s4 H H4 IH]; [exact S1|].
  assert (R3 : reachable s3) by (eapply rtc_r; [exact R1 | exact H]).
  assert (G3 : forall i, i = wr \/ is_Some (y_files y !! i) -> is_Some (y_files s3.1 !! i)).
  { intros i X. destruct (G i X) as (f & F). destruct (files_persist _ _ R1 (rtc_once _ _ H) i f F) as (f' & F' & _). exists f'. exact F'. }
  apply IH; [exact Only | | exact R3 | exact G3]. eapply sole_step; [exact H | | exact (fresh _ _ R1 H) | exact S1].
  intros wr' C. pose proof (fresh _ _ R1 H _ _ C) as Fr. assert (F3 : exists f, y_files s3.1 !! wr' = Some f /\ f_path f = p).
  { destruct H as [y' y3 k' S Cl|y' k' wr0 f0 x F0 O0]; cbn [fst] in *; [|destruct C as [_ C]; lia].
    destruct (step_files _ _ S) as [(wr1 & p1 & C1 & E)|[N _]]; [|by destruct (N wr' p)].
    destruct C1 as [C1 _], C as [C _]. rewrite C in C1. injection C1 as <- <-. exists (mkfile p [] true). by rewrite E, lookup_insert. }
  destruct F3 as (f3 & F3 & P3). destruct (files_persist _ _ R3 H4 wr' f3 F3) as (f4 & F4 & P4).
  assert (X : wr' = wr \/ is_Some (y_files y !! wr')) by (eapply Only; [exact F4 | congruence]).
  apply G in X as (f & X). congruence.
Qed.

(** A compressor that has ended has put out what it should. *)
Lemma ended_output s : reachable s -> forall wr f, y_files s.1 !! wr = Some f -> f_open f = false -> d_out s.2 wr = z (f_data f).
Proof.
  intros R0. pattern s. revert R0. apply (rtc_ind_r (R := dstep)); [intros wr f F; cbn in F; by rewrite lookup_empty in F|].
  clear s. intros s s' R H IH wr f F O. pose proof (fresh _ _ R H) as Fr. destruct H as [y y' k S Cl|y k wr0 f0 x F0 O0]; cbn [fst snd] in *.
  - destruct (step_files _ _ S) as [(wr1 & p1 & C1 & E)|[N K]].
    + rewrite E in F. destruct (decide (wr = wr1)) as [->|Ne]; [rewrite lookup_insert in F; by injection F as <-|]. rewrite lookup_insert_ne in F by done.
      rewrite (at_once_create _ _ _ _ _ C1). cbn. rewrite emits_other by done. by apply IH.
    + rewrite at_once_other by exact N. pose proof (K wr) as X. rewrite F in X. destruct (y_files y !! wr) as [f1|] eqn:F1; [|done]. destruct X as (P1 & P2 & P3).
      rewrite (P3 O). destruct (f_open f1) eqn:O1; [by apply (Cl wr f1 f) | by apply IH].
  - assert (wr <> wr0) by congruence. cbn. rewrite emits_other by done. by apply IH.
Qed.
(** Other files stay as they were. *)
Lemma untouched s : reachable s -> forall p, (forall wr f, y_files s.1 !! wr = Some f -> f_path f <> p) -> d_file s.2 p = k0 p.
Proof.
  intros R0. pattern s. revert R0. apply (rtc_ind_r (R := dstep)); [done|].
  clear s. intros s s' R H IH p A. assert (A0 : forall wr f, y_files s.1 !! wr = Some f -> f_path f <> p).
  { intros wr f F E. destruct (files_persist _ _ R (rtc_once _ _ H) wr f F) as (f' & F' & P'). apply (A wr f' F'). congruence. }
  destruct H as [y y' k S Cl|y k wr0 f0 x F0 O0]; cbn [fst snd] in *.
  - destruct (step_files _ _ S) as [(wr1 & p1 & C1 & E)|[N K]].
    + rewrite (at_once_create _ _ _ _ _ C1). cbn. rewrite put_other; [by apply IH|]. intros ->. apply (A wr1 (mkfile p1 [] true)); [|done]. by rewrite E, lookup_insert.
    + rewrite at_once_other by exact N. by apply IH.
  - cbn. rewrite put_other; [by apply IH|]. intros ->. by apply (A0 wr0 f0).
Qed.
(** As long as the paths differ, a file on disk is what its compressor has put out. *)
Definition apart (y : sys) : Prop := forall wr wr' f f', y_files y !! wr = Some f -> y_files y !! wr' = Some f' -> f_path f = f_path f' -> wr = wr'.
Lemma apart_disk s : reachable s -> apart s.1 -> forall wr f, y_files s.1 !! wr = Some f -> d_file s.2 (f_path f) = Some (d_out s.2 wr).
Proof.
  intros R0. pattern s. revert R0. apply (rtc_ind_r (R := dstep)); [intros _ wr f F; cbn in F; by rewrite lookup_empty in F|].
  clear s. intros s s' R H IH A wr f F. assert (A0 : apart s.1).
  { intros wr1 wr2 f1 f2 F1 F2 E. destruct (files_persist _ _ R (rtc_once _ _ H) wr1 f1 F1) as (f1' & F1' & P1').
    destruct (files_persist _ _ R (rtc_once _ _ H) wr2 f2 F2) as (f2' & F2' & P2'). apply (A _ _ _ _ F1' F2'). congruence. }
  specialize (IH A0). destruct H as [y y' k S Cl|y k wr0 f0 x F0 O0]; cbn [fst snd] in *.
  - destruct (step_files _ _ S) as [(wr1 & p1 & C1 & E)|[N K]].
    + rewrite (at_once_create _ _ _ _ _ C1). destruct (decide (wr = wr1)) as [->|Ne].
      * rewrite E, lookup_insert in F. injection F as <-. cbn. by rewrite put_same, emits_same.
      * cbn. rewrite put_other, emits_other by first [done | intros X; apply Ne; apply (A _ _ f (mkfile p1 [] true)); [exact F | by rewrite E, lookup_insert | exact X]].
        rewrite E, lookup_insert_ne in F by done. by apply IH.
    + rewrite at_once_other by exact N. pose proof (K wr) as X. rewrite F in X. destruct (y_files y !! wr) as [f1|] eqn:F1; [|done]. destruct X as (-> & _). by apply IH.
  - destruct (decide (wr = wr0)) as [->|Ne].
    + assert (f = f0) as -> by congruence. cbn. by rewrite put_same, emits_same, (IH _ _ F0), overlay_end.
    + cbn. rewrite put_other, emits_other by first [done | intros X; apply Ne; by apply (A _ _ f f0)]. by apply IH.
Qed.
End Steps.
