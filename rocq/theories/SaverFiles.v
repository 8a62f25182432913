(** Invariants of the output files over the saver's elementary steps
    (C19 - C22). *)
From stdpp Require Import gmap relations.
From Coq Require Import NArith ZArith Lia.
From Verif Require Import GoBase GoBaseFacts GoTime Inetdiag Netlink SpecNetlink SpecCompare RecordFacts CompareFacts
  Cache SpecCache CacheFacts Saver SpecSaver SaverSteps.

(** ** Names *)
Lemma from_cookie_inj p a b : (a < two64)%N -> (b < two64)%N -> from_cookie p a = from_cookie p b -> a = b.
Proof.
  intros Ha Hb E. unfold from_cookie in E. apply app_inv_head, app_inv_head in E.
  by apply hex16_inj.
Qed.
Lemma app_sep_inv {A} (c : A) x y d e : c ∉ d -> c ∉ e -> x ++ c :: d = y ++ c :: e -> x = y /\ d = e.
Proof.
  intros Hd He E. apply app_eq_inv in E as [(k & E1 & E2)|(k & E1 & E2)].
  - destruct k as [|z k]; cbn in E2.
    + rewrite app_nil_r in E1. split; [congruence|congruence].
    + exfalso. injection E2 as -> ->. apply He. set_solver.
  - destruct k as [|z k]; cbn in E2.
    + rewrite app_nil_r in E1. split; congruence.
    + exfalso. injection E2 as -> ->. apply Hd. set_solver.
Qed.
Lemma dec_pad_nodot k n : x2e ∉ dec_pad k n.
Proof.
  unfold dec_pad. intros H. apply elem_of_app in H as [H|H].
  - apply elem_of_list_In in H. apply List.repeat_spec in H. discriminate.
  - pose proof (dec_digits n) as D. rewrite Forall_forall in D. specialize (D _ H). discriminate D.
Qed.
Lemma file_path_inj p dp k n dp' k' n' : (k < two64)%N -> (k' < two64)%N ->
  file_path dp (from_cookie p k) n = file_path dp' (from_cookie p k') n' -> dp = dp' /\ k = k' /\ n = n'.
Proof.
  intros Hk Hk' E. unfold file_path in E.
  rewrite !app_assoc in E. apply app_inv_tail in E. rewrite <- !app_assoc in E.
  change ([x2e] ++ dec_pad 5 (N.of_nat n)) with (x2e :: dec_pad 5 (N.of_nat n)) in E.
  change ([x2e] ++ dec_pad 5 (N.of_nat n')) with (x2e :: dec_pad 5 (N.of_nat n')) in E.
  rewrite !app_assoc in E. apply app_sep_inv in E as [E1 E2]; [|apply dec_pad_nodot..].
  apply dec_pad_inj in E2. apply Nat2N.inj in E2.
  rewrite <- !app_assoc in E1. apply app_inj_2 in E1 as [E3 E4].
  2:{ unfold from_cookie. by rewrite !app_length, !hex16_length. }
  apply app_inv_head in E4. apply from_cookie_inj in E4; auto.
Qed.

(** ** Small facts about logs *)
Lemma file_actions_app wr l1 l2 : file_actions wr (l1 ++ l2) = file_actions wr l1 ++ file_actions wr l2.
Proof. apply List.filter_app. Qed.
Lemma neutral_about wr a : neutral a = true -> about wr a = false.
Proof. by destruct a. Qed.
Lemma readings_app l1 l2 : readings (l1 ++ l2) = readings l1 ++ readings l2.
Proof. apply omap_app. Qed.
Lemma last_reading_now l : last_reading l = last_now l.
Proof. done. Qed.
Lemma last_reading_snoc l a : last_reading (l ++ [a]) = match a with ANow t => Some t | _ => last_reading l end.
Proof. rewrite !last_reading_now, last_now_app. by destruct a. Qed.
Lemma stamped_app lr l1 l2 : stamped lr (l1 ++ l2) =
  stamped lr l1 ++ stamped (match last_reading l1 with Some t => Some t | None => lr end) l2.
Proof.
  revert lr. induction l1 as [|a l1 IH]; intros lr; [done|]. cbn [app stamped]. rewrite IH. f_equal. f_equal. f_equal.
  change (a :: l1) with ([a] ++ l1). rewrite !last_reading_now, last_now_app.
  destruct (last_now l1); [done|]. by destruct a.
Qed.
Lemma stamped_snoc l a : stamped None (l ++ [a]) = stamped None l ++ [(last_reading l, a)].
Proof. rewrite stamped_app. cbn. by destruct (last_reading l). Qed.

Lemma numbering_app p k l1 l2 : numbering p k (l1 ++ l2) = numbering p k l1 ++ numbering p k l2.
Proof. apply omap_app. Qed.
Lemma numbering_neutral p k a : neutral a = true -> numbering p k [a] = [].
Proof. by destruct a. Qed.

(** The number expected next. *)
Fixpoint next_number (n : Z) (l : list (option Z)) : Z :=
  match l with
  | [] => n
  | None :: r => next_number 0 r
  | Some _ :: r => next_number (n + 1) r
  end.
Lemma consecutive_app n l1 l2 : consecutive n (l1 ++ l2) <-> consecutive n l1 /\ consecutive (next_number n l1) l2.
Proof.
  revert n. induction l1 as [|[x|] l1 IH]; intros n; cbn; [tauto| |apply IH]. rewrite IH. tauto.
Qed.
Lemma next_number_app n l1 l2 : next_number n (l1 ++ l2) = next_number (next_number n l1) l2.
Proof. revert n. induction l1 as [|[x|] l1 IH]; intros n; cbn; auto. Qed.
Lemma consecutive_repeat n A B C x : consecutive n (A ++ Some x :: B ++ Some x :: C) -> None ∈ B.
Proof.
  rewrite consecutive_app. intros [_ H]. cbn in H. destruct H as [-> H].
  set (y := next_number n A) in *. clearbody y. clear n A.
  assert (G : forall z, (y < z)%Z -> consecutive z (B ++ Some y :: C) -> None ∈ B).
  { clear. induction B as [|[b|] B IH]; intros z Hz; cbn.
    - intros [-> _]. lia.
    - intros [-> H]. apply elem_of_list_further. apply (IH (z + 1)%Z); [lia|done].
    - intros _. apply elem_of_list_here. }
  apply (G (y + 1)%Z); [lia|done].
Qed.

Section Files.
Variables (w : world) (cf : config).
Let P := uuid_prefix w.

Definition same_cookie (k : N) (recs : list cell) : Prop := Forall (fun m => usable m /\ cookie_of m = k) recs.

Definition finv (c : gmap N conn * nat * list action) : Prop :=
  let '(m, n, l) := c in
  (forall wr, n <= wr -> file_actions wr l = []) /\
  (forall k c wr, m !! k = Some c -> cn_writer c = Some wr -> wr < n /\
     exists md recs path, file_actions wr l = written wr (qof cf k) md recs path false /\
       md_uuid md = from_cookie P k /\ same_cookie k recs) /\
  (forall wr, wr < n -> (exists k c, m !! k = Some c /\ cn_writer c = Some wr) \/
     exists k md recs path, file_actions wr l = written wr (qof cf k) md recs path true /\
       (k < two64)%N /\ md_uuid md = from_cookie P k /\ same_cookie k recs) /\
  (forall k c, m !! k = Some c -> (k < two64)%N /\ k <> 0%N /\ cookie_uint64 (cn_id c) = k).

Lemma finv_init : finv (core new_saver).
Proof. repeat split; cbn; intros; try lia; try done. Qed.

Lemma written_snoc wr q md recs path m :
  written wr q md recs path false ++ [ASend q (Some m) wr] = written wr q md (recs ++ [m]) path false.
Proof. unfold written. rewrite map_app. cbn. rewrite !app_nil_r. done. Qed.
Lemma written_close wr q md recs path :
  written wr q md recs path false ++ [ASend q None wr] = written wr q md recs path true.
Proof. unfold written. cbn. by rewrite app_nil_r. Qed.

Lemma finv_owner_unique m n l k k' c c' wr : finv (m, n, l) ->
  m !! k = Some c -> m !! k' = Some c' -> cn_writer c = Some wr -> cn_writer c' = Some wr -> k = k'.
Proof.
  intros (_ & H2 & _ & H4) Hk Hk' Hw Hw'.
  destruct (H2 _ _ _ Hk Hw) as (_ & md & recs & path & E & U & _).
  destruct (H2 _ _ _ Hk' Hw') as (_ & md' & recs' & path' & E' & U' & _).
  rewrite E in E'. unfold written in E'. injection E' as E1 E2 E3. subst md'.
  apply (from_cookie_inj P); [by eapply H4|by eapply H4|congruence].
Qed.

Lemma finv_quiet m n l a : (forall wr, about wr a = false) -> finv (m, n, l) -> finv (m, n, l ++ [a]).
Proof.
  intros Ha (H1 & H2 & H3 & H4).
  assert (E : forall wr, file_actions wr (l ++ [a]) = file_actions wr l).
  { intros wr. rewrite file_actions_app. cbn. rewrite Ha. by rewrite app_nil_r. }
  split; [|split; [|split]].
  - intros wr Hwr. rewrite E. auto.
  - intros k c wr Hk Hw. rewrite E. eauto.
  - intros wr Hwr. rewrite E. auto.
  - exact H4.
Qed.

Lemma fa_send wr q msg wr' :
  file_actions wr [ASend q msg wr'] = if Nat.eqb wr' wr then [ASend q msg wr'] else [].
Proof. done. Qed.

Lemma finv_step c c' : cstep w cf c c' -> finv c -> finv c'.
Proof.
  intros S. destruct S as
    [m n l a Ha|m n l k id t e Hk H0 Hlt Hid Hn|m n l k c wr t Hk Hw Hn He|m n l k c t dp t' Hk Hw Hn Hdp
    |m n l k c wr msg Hk Hw Hu Hck Ht|m n l k t|m n l k c wr Hk Hw Hcl]; intros Inv.
  - apply finv_quiet; [intros; by apply neutral_about|done].
  - apply (finv_quiet _ _ _ (AOpen t k id)) in Inv; [|done]. destruct Inv as (H1 & H2 & H3 & H4).
    split; [done|]. split; [|split].
    + intros k' c' wr Hk' Hw. apply lookup_insert_Some in Hk' as [[<- <-]|[Hne Hk']]; [done|]. eauto.
    + intros wr Hwr. destruct (H3 wr Hwr) as [(k' & c' & Hk' & Hw)|Hc]; [|by right]. left. exists k', c'.
      split; [|done]. rewrite lookup_insert_ne; [done|]. intros ->. congruence.
    + intros k' c' Hk'. apply lookup_insert_Some in Hk' as [[<- <-]|[Hne Hk']]; [done|]. eauto.
  - pose proof (finv_owner_unique m n l) as HU. specialize (fun k k' c c' wr => HU k k' c c' wr Inv).
    destruct Inv as (H1 & H2 & H3 & H4). destruct (H2 _ _ _ Hk Hw) as (Hlt & md & recs & path & E & U & R).
    split; [|split; [|split]].
    + intros wr' Hwr'. rewrite file_actions_app, fa_send.
      destruct (Nat.eqb_spec wr wr'); [lia|]. rewrite app_nil_r. auto.
    + intros k' c' wr' Hk' Hw'. apply lookup_insert_Some in Hk' as [[<- <-]|[Hne Hk']]; [done|].
      rewrite file_actions_app, fa_send. destruct (Nat.eqb_spec wr wr') as [<-|Hn'].
      * exfalso. apply Hne. eauto.
      * rewrite app_nil_r. eauto.
    + intros wr' Hwr'. rewrite file_actions_app, fa_send. destruct (Nat.eqb_spec wr wr') as [<-|Hn'].
      * right. exists k, md, recs, path. rewrite E, written_close. split; [done|]. split; [by eapply H4|done].
      * rewrite app_nil_r. destruct (H3 wr' Hwr') as [(k' & c' & Hk' & Hw')|Hc]; [|by right]. left. exists k', c'.
        split; [|done]. rewrite lookup_insert_ne; [done|]. intros ->. congruence.
    + intros k' c' Hk'. apply lookup_insert_Some in Hk' as [[<- <-]|[Hne Hk']]; [|by eapply H4].
      apply (H4 k c Hk).
  - destruct Inv as (H1 & H2 & H3 & H4). destruct (H4 _ _ Hk) as (Hlt & H0 & Hid). rewrite Hid.
    set (path := file_path _ _ _). set (md := mkmeta _ _ _).
    assert (Efa : forall wr, file_actions wr (l ++ [AMkdir t' dp; ACreate n path; AHeader n md; ANewFile])
              = file_actions wr l ++ if Nat.eqb n wr then [ACreate n path; AHeader n md] else []).
    { intros wr. rewrite file_actions_app. cbn. by destruct (Nat.eqb n wr). }
    split; [|split; [|split]].
    + intros wr Hwr. rewrite Efa. destruct (Nat.eqb_spec n wr); [lia|]. rewrite app_nil_r. apply H1. lia.
    + intros k' c' wr Hk' Hw'. rewrite Efa. apply lookup_insert_Some in Hk' as [[<- <-]|[Hne Hk']].
      * cbn in Hw'. injection Hw' as <-. split; [lia|]. exists md, [], path. rewrite Nat.eqb_refl, H1 by lia. split; [reflexivity|split; [reflexivity|constructor]].
      * destruct (H2 _ _ _ Hk' Hw') as (Hn' & md' & recs & path' & E & U & R). split; [lia|].
        exists md', recs, path'. destruct (Nat.eqb_spec n wr); [lia|]. by rewrite app_nil_r.
    + intros wr Hwr. rewrite Efa. destruct (Nat.eqb_spec n wr) as [<-|Hn'].
      * left. eexists k, _. rewrite lookup_insert. done.
      * rewrite app_nil_r. destruct (H3 wr) as [(k' & c' & Hk' & Hw')|Hc]; [lia| |by right].
        left. exists k', c'. split; [|done]. rewrite lookup_insert_ne; [done|]. intros ->. congruence.
    + intros k' c' Hk'. apply lookup_insert_Some in Hk' as [[<- <-]|[Hne Hk']]; [|by eapply H4]. done.
  - pose proof (finv_owner_unique m n l) as HU. specialize (fun k k' c c' wr => HU k k' c c' wr Inv).
    destruct Inv as (H1 & H2 & H3 & H4).
    split; [|split; [|split]].
    + intros wr' Hwr'. rewrite file_actions_app, fa_send.
      destruct (H2 _ _ _ Hk Hw) as (Hlt & _). destruct (Nat.eqb_spec wr wr'); [lia|]. rewrite app_nil_r. auto.
    + intros k' c' wr' Hk' Hw'. destruct (H2 _ _ _ Hk' Hw') as (Hlt & md & recs & path & E & U & R).
      split; [done|]. rewrite file_actions_app, fa_send, E. destruct (Nat.eqb_spec wr wr') as [<-|Hn'].
      * assert (k = k') as <- by eauto. exists md, (recs ++ [msg]), path. rewrite written_snoc. split; [done|].
        split; [done|]. apply Forall_app. split; [done|]. by constructor.
      * exists md, recs, path. by rewrite app_nil_r.
    + intros wr' Hwr'. destruct (H3 wr' Hwr') as [Ho|(k' & md & recs & path & E & R)]; [by left|].
      rewrite file_actions_app, fa_send, E. destruct (Nat.eqb_spec wr wr') as [<-|Hn'].
      * exfalso. destruct (H2 _ _ _ Hk Hw) as (_ & md2 & recs2 & path2 & E2 & _). rewrite E2 in E.
        unfold written in E. injection E as _ _ E. rewrite app_nil_r in E. cbn [app] in E.
        apply (f_equal last) in E. rewrite last_snoc in E.
        apply last_Some_elem_of in E. apply elem_of_list_In, in_map_iff in E as (? & ? & _). discriminate.
      * right. exists k', md, recs, path. by rewrite app_nil_r.
    + exact H4.
  - apply finv_quiet; [done|done].
  - pose proof (finv_owner_unique m n l) as HU. specialize (fun k k' c c' wr => HU k k' c c' wr Inv).
    destruct Inv as (H1 & H2 & H3 & H4). destruct (H2 _ _ _ Hk Hw) as (Hlt & md & recs & path & E & U & R).
    split; [|split; [|split]].
    + intros wr' Hwr'. rewrite file_actions_app, fa_send.
      destruct (Nat.eqb_spec wr wr'); [lia|]. rewrite app_nil_r. auto.
    + intros k' c' wr' Hk' Hw'. apply lookup_delete_Some in Hk' as [Hne Hk'].
      rewrite file_actions_app, fa_send. destruct (Nat.eqb_spec wr wr') as [<-|Hn'].
      * exfalso. apply Hne. eauto.
      * rewrite app_nil_r. eauto.
    + intros wr' Hwr'. rewrite file_actions_app, fa_send. destruct (Nat.eqb_spec wr wr') as [<-|Hn'].
      * right. exists k, md, recs, path. rewrite E, written_close. split; [done|]. split; [by eapply H4|done].
      * rewrite app_nil_r. destruct (H3 wr' Hwr') as [(k' & c' & Hk' & Hw')|Hc]; [|by right]. left. exists k', c'.
        split; [|done]. rewrite lookup_delete_ne; [done|]. intros ->. congruence.
    + intros k' c' Hk'. apply lookup_delete_Some in Hk' as [Hne Hk']. eauto.
Qed.

(** ** Numbering *)
Definition ninv (c : gmap N conn * nat * list action) : Prop :=
  let '(m, n, l) := c in
  (forall k, (k < two64)%N -> consecutive 0 (numbering P k l)) /\
  (forall k c, m !! k = Some c -> next_number 0 (numbering P k l) = Z.of_nat (cn_seq c)).

Lemma numbering_open k t k' id : numbering P k [AOpen t k' id] = if N.eqb k' k then [None] else [].
Proof. cbn. by destruct (N.eqb k' k). Qed.
Lemma numbering_rotate k k' b dp n path md : (k < two64)%N -> (k' < two64)%N -> md_uuid md = from_cookie P k' ->
  numbering P k [AMkdir b dp; ACreate n path; AHeader n md; ANewFile] = if N.eqb k' k then [Some (md_seq md)] else [].
Proof.
  intros Hk Hk' U. cbn. rewrite U. destruct (bytes_eqb _ _) eqn:E.
  - apply bytes_eqb_eq, from_cookie_inj in E; [|done..]. subst. by rewrite N.eqb_refl.
  - destruct (N.eqb_spec k' k) as [->|]; [|done]. by rewrite bytes_eqb_refl in E.
Qed.
Lemma numbering_none k a : neutral a = true \/ (exists q msg wr, a = ASend q msg wr) \/ (exists t k', a = AClose t k') ->
  numbering P k [a] = [].
Proof. intros [H|[(? & ? & ? & ->)|(? & ? & ->)]]; [by apply numbering_neutral|done|done]. Qed.

Lemma ninv_same m m' n n' l a : 
  (forall k, numbering P k [a] = []) ->
  (forall k c, m' !! k = Some c -> exists c0, m !! k = Some c0 /\ cn_seq c0 = cn_seq c) ->
  ninv (m, n, l) -> ninv (m', n', l ++ [a]).
Proof.
  intros Ha Hm (H1 & H2). split.
  - intros k Hk. rewrite numbering_app, Ha, app_nil_r. auto.
  - intros k c Hk. rewrite numbering_app, Ha, app_nil_r. destruct (Hm _ _ Hk) as (c0 & Hc0 & <-). auto.
Qed.

Lemma ninv_step c c' : cstep w cf c c' -> finv c -> ninv c -> ninv c'.
Proof.
  intros S. destruct S as
    [m n l a Ha|m n l k id t e Hk H0 Hlt Hid Hn|m n l k c wr t Hk Hw Hn He|m n l k c t dp t' Hk Hw Hn Hdp
    |m n l k c wr msg Hk Hw Hu Hck Ht|m n l k t|m n l k c wr Hk Hw Hcl]; intros Inv NI.
  - eapply ninv_same; [| |exact NI]; [intros; apply numbering_none; auto|eauto].
  - destruct NI as (H1 & H2). split.
    + intros k' Hk'. rewrite numbering_app, numbering_open. apply consecutive_app. split; [auto|].
      by destruct (N.eqb k k').
    + intros k' c' Hk'. rewrite numbering_app, numbering_open, next_number_app.
      apply lookup_insert_Some in Hk' as [[<- <-]|[Hne Hk']].
      * by rewrite N.eqb_refl.
      * destruct (N.eqb_spec k k'); [done|]. cbn. auto.
  - eapply ninv_same; [| |exact NI]; [intros; apply numbering_none; eauto 10|].
    intros k' c' Hk'. apply lookup_insert_Some in Hk' as [[<- <-]|[Hne Hk']]; eauto.
  - destruct Inv as (_ & _ & _ & H4). destruct (H4 _ _ Hk) as (Hlt & H0 & Hid). rewrite Hid. destruct NI as (H1 & H2).
    split.
    + intros k' Hk'. rewrite numbering_app, (numbering_rotate k' k) by done. cbn [md_seq].
      apply consecutive_app. split; [auto|]. destruct (N.eqb_spec k k') as [<-|]; [|done].
      split; [|done]. by rewrite (H2 _ _ Hk).
    + intros k' c' Hk'. rewrite numbering_app, next_number_app.
      apply lookup_insert_Some in Hk' as [[<- <-]|[Hne Hk']].
      * rewrite (numbering_rotate k k) by done. rewrite N.eqb_refl. cbn. rewrite (H2 _ _ Hk). lia.
      * rewrite (numbering_rotate k' k); [|by eapply H4|done|done].
        destruct (N.eqb_spec k k'); [done|]. cbn. auto.
  - eapply ninv_same; [| |exact NI]; [intros; apply numbering_none; eauto 10|eauto].
  - eapply ninv_same; [| |exact NI]; [intros; apply numbering_none; eauto 10|eauto].
  - eapply ninv_same; [| |exact NI]; [intros; apply numbering_none; eauto 10|].
    intros k' c' Hk'. apply lookup_delete_Some in Hk' as [Hne Hk']. eauto.
Qed.

(** ** Paths *)
Definition names_file (l1 : list action) (p : bytes) (md : metadata) : Prop :=
  exists k t, (k < two64)%N /\ md_uuid md = from_cookie P k /\ last_reading l1 = Some t /\ (0 <= md_seq md)%Z /\
    p = file_path (format_date (if (md_seq md =? 0)%Z then md_start md else t)) (from_cookie P k) (Z.to_nat (md_seq md)).
Definition pinv (c : gmap N conn * nat * list action) : Prop :=
  let '(m, n, l) := c in
  forall l1 wr p l2, l = l1 ++ ACreate wr p :: l2 ->
    exists md l3, l2 = AHeader wr md :: l3 /\ names_file l1 p md.

Lemma pinv_snoc m m' n n' l a : (forall wr p, a <> ACreate wr p) -> pinv (m, n, l) -> pinv (m', n', l ++ [a]).
Proof.
  intros Ha H l1 wr p l2 E. apply app_eq_inv in E as [(k & E1 & E2)|(k & E1 & E2)].
  - destruct k as [|x k]; [cbn in E2; injection E2 as E2; by apply Ha in E2 || (symmetry in E2; by apply Ha in E2)|].
    cbn in E2. injection E2 as <- ->. destruct (H _ _ _ _ E1) as (md & l3 & -> & HN). exists md, (l3 ++ [a]). done.
  - destruct k as [|x k]; cbn in E2; [injection E2 as E2 _; by apply Ha in E2|].
    injection E2 as _ E2. by destruct k.
Qed.
Lemma pinv_step c c' : cstep w cf c c' -> finv c -> pinv c -> pinv c'.
Proof.
  intros S. destruct S as
    [m n l a Ha|m n l k id t e Hk H0 Hlt Hid Hn|m n l k c wr t Hk Hw Hn He|m n l k c t dp t' Hk Hw Hn Hdp
    |m n l k c wr msg Hk Hw Hu Hck Ht|m n l k t|m n l k c wr Hk Hw Hcl]; intros Inv NI;
  try (eapply pinv_snoc; [|exact NI]; intros ? ? ?; subst; done).
  destruct Inv as (_ & _ & _ & H4). destruct (H4 _ _ Hk) as (Hlt & H0 & Hid). rewrite Hid.
  intros l1 wr p l2 E. apply app_eq_inv in E as [(x & E1 & E2)|(x & E1 & E2)].
  - destruct x as [|y x]; cbn in E2; [discriminate|]. injection E2 as <- ->.
    destruct (NI _ _ _ _ E1) as (md & l3 & -> & HN). eexists md, _. split; [reflexivity|done].
  - destruct x as [|y x]; cbn in E2; [discriminate|]. injection E2 as <- E2.
    destruct x as [|y x]; cbn in E2.
    + injection E2 as <- <- <-. eexists _, _. split; [reflexivity|]. exists k, t.
      split; [done|]. split; [done|]. split; [subst l1; by rewrite last_reading_snoc|]. cbn [md_seq md_start].
      split; [lia|]. rewrite Nat2Z.id. rewrite Hdp. f_equal. f_equal.
      destruct (cn_seq c); [done|]. cbn. destruct (Z.eqb_spec (Z.of_nat (S n0)) 0); [lia|done].
    + injection E2 as <- E2. destruct x as [|y x]; cbn in E2; [discriminate|]. injection E2 as <- E2.
      destruct x as [|y x]; cbn in E2; [discriminate|]. injection E2 as <- E2. by destruct x.
Qed.

(** ** Times *)
Lemma nondecreasing_snoc l x : nondecreasing (l ++ [x]) -> nondecreasing l /\ forall y, last l = Some y -> (y <= x)%Z.
Proof.
  induction l as [|a l IH]; [done|]. destruct l as [|b l]; cbn.
  - intros [H _]. split; [done|]. intros y E. by injection E as <-.
  - intros [H1 H2]. destruct (IH H2) as [G1 G2]. auto.
Qed.

Definition ten : Z := (10 * minute)%Z.
Definition tinv (c : gmap N conn * nat * list action) : Prop :=
  let '(m, n, l) := c in
  (forall t wr p, (t, ACreate wr p) ∈ stamped None l ->
     wr < n /\ exists tc lr, t = Some tc /\ last_reading l = Some lr /\ (tc <= lr)%Z) /\
  (forall k c wr t p, m !! k = Some c -> cn_writer c = Some wr -> (t, ACreate wr p) ∈ stamped None l ->
     exists tc, t = Some tc /\ (cn_exp c <= tc + ten)%Z) /\
  (forall k c, m !! k = Some c -> cn_writer c = None -> exists lr, last_reading l = Some lr /\ (cn_exp c <= lr)%Z) /\
  (forall t p t' q msg wr, (t, ACreate wr p) ∈ stamped None l -> (t', ASend q (Some msg) wr) ∈ stamped None l ->
     exists tc ts, t = Some tc /\ t' = Some ts /\ (tc <= ts <= tc + ten)%Z) /\
  (forall t' q msg wr, (t', ASend q (Some msg) wr) ∈ stamped None l -> wr < n) /\
  (forall t p t' p' wr, (t, ACreate wr p) ∈ stamped None l -> (t', ACreate wr p') ∈ stamped None l -> t = t').

Lemma tinv_snoc m m' n l a : tinv (m, n, l) ->
  (forall wr p, a <> ACreate wr p) -> (forall q msg wr, a <> ASend q (Some msg) wr) ->
  (forall t, a = ANow t -> forall lr, last_reading l = Some lr -> (lr <= t)%Z) ->
  (forall k c wr, m' !! k = Some c -> cn_writer c = Some wr -> m !! k = Some c) ->
  (forall k c, m' !! k = Some c -> cn_writer c = None ->
     m !! k = Some c \/ exists lr, last_reading l = Some lr /\ (cn_exp c <= lr)%Z) ->
  tinv (m', n, l ++ [a]).
Proof.
  intros (H1 & H2 & H3 & H4 & H5 & H6) Hc Hs Hn Hm1 Hm2.
  assert (Hlr : forall lr, last_reading l = Some lr -> exists lr', last_reading (l ++ [a]) = Some lr' /\ (lr <= lr')%Z).
  { intros lr E. rewrite last_reading_snoc. destruct a; try (exists lr; split; [done|lia]). exists t. split; [done|]. by eapply Hn. }
  assert (Hin : forall t x, (t, x) ∈ stamped None (l ++ [a]) -> (t, x) ∈ stamped None l \/ x = a).
  { intros t x. rewrite stamped_snoc. intros E. apply elem_of_app in E as [E|E]; [by left|].
    apply elem_of_list_singleton in E. right. congruence. }
  split; [|split; [|split; [|split; [|split]]]].
  - intros t wr p E. apply Hin in E as [E|E]; [|by symmetry in E; apply Hc in E].
    destruct (H1 _ _ _ E) as (L & tc & lr & -> & E2 & E3). split; [done|].
    destruct (Hlr _ E2) as (lr' & E4 & E5). exists tc, lr'. split; [done|]. split; [done|]. lia.
  - intros k c wr t p Hk Hw E. apply Hin in E as [E|E]; [|by symmetry in E; apply Hc in E]. eauto.
  - intros k c Hk Hw.
    assert (exists lr, last_reading l = Some lr /\ (cn_exp c <= lr)%Z) as (lr & E1 & E2).
    { destruct (Hm2 _ _ Hk Hw) as [Hk'|Hk']; eauto. }
    destruct (Hlr _ E1) as (lr' & E4 & E5). exists lr'. split; [done|lia].
  - intros t p t' q msg wr E E'. apply Hin in E as [E|E]; [|by symmetry in E; apply Hc in E].
    apply Hin in E' as [E'|E']; [|by symmetry in E'; apply Hs in E']. eauto.
  - intros t' q msg wr E'. apply Hin in E' as [E'|E']; [|by symmetry in E'; apply Hs in E']. eauto.
  - intros t p t' p' wr E E'. apply Hin in E as [E|E]; [|by symmetry in E; apply Hc in E].
    apply Hin in E' as [E'|E']; [|by symmetry in E'; apply Hc in E']. eauto.
Qed.

Lemma tinv_step c c' : cstep w cf c c' -> finv c -> tinv c -> nondecreasing (readings c'.2) -> tinv c'.
Proof.
  intros S. destruct S as
    [m n l a Ha|m n l k id t e Hk H0 Hlt Hid Hn|m n l k c wr t Hk Hw Hn He|m n l k c t dp t' Hk Hw Hn Hdp
    |m n l k c wr msg Hk Hw Hu Hck Ht|m n l k t|m n l k c wr Hk Hw Hcl]; intros Inv NI Mono.
  - eapply tinv_snoc; [exact NI|by intros ? ? ->|by intros ? ? ? ->| |eauto|eauto].
    intros t -> lr E. cbn in Mono. rewrite readings_app in Mono. cbn in Mono. apply nondecreasing_snoc in Mono as [_ M]. auto.
  - eapply tinv_snoc; [exact NI|done|done|done| |].
    + intros k' c' wr Hk' Hw. apply lookup_insert_Some in Hk' as [[<- <-]|[Hne Hk']]; done.
    + intros k' c' Hk' Hw. apply lookup_insert_Some in Hk' as [[<- <-]|[Hne Hk']]; [|by left].
      right. exists e. cbn. split; [done|lia].
  - eapply tinv_snoc; [exact NI|done|done|done| |].
    + intros k' c' wr' Hk' Hw'. apply lookup_insert_Some in Hk' as [[<- <-]|[Hne Hk']]; done.
    + intros k' c' Hk' Hw'. apply lookup_insert_Some in Hk' as [[<- <-]|[Hne Hk']]; [|by left].
      right. exists t. cbn. split; [done|lia].
  - clear Mono. destruct NI as (H1 & H2 & H3 & H4 & H5 & H6). set (path := file_path _ _ _). set (md := mkmeta _ _ _).
    destruct Inv as (_ & F2 & _).
    assert (Elr : last_reading (l ++ [AMkdir t' dp; ACreate n path; AHeader n md; ANewFile]) = Some t).
    { rewrite last_reading_now, last_now_app. done. }
    assert (Hin : forall tt x, (tt, x) ∈ stamped None (l ++ [AMkdir t' dp; ACreate n path; AHeader n md; ANewFile]) ->
        (tt, x) ∈ stamped None l \/ (tt = Some t /\ x = ACreate n path) \/ ((forall wr p, x <> ACreate wr p) /\ (forall q msg wr, x <> ASend q (Some msg) wr))).
    { intros tt x. rewrite stamped_app. rewrite last_reading_now, Hn. cbn. intros E. apply elem_of_app in E as [E|E]; [by left|].
      right. rewrite !elem_of_cons, elem_of_nil in E. destruct E as [E|[E|[E|[E|[]]]]]; [right|left|right|right]; (injection E as -> ->); done. }
    split; [|split; [|split; [|split; [|split]]]].
    + intros tt wr p E. rewrite Elr. apply Hin in E as [E|[[-> E]|[E _]]]; [| |by edestruct E].
      * destruct (H1 _ _ _ E) as (L & tc & lr & -> & E2 & E3). split; [lia|].
        rewrite last_reading_now, Hn in E2. injection E2 as <-. eauto.
      * injection E as -> ->. split; [lia|]. exists t, t. done.
    + intros k' c' wr tt p Hk' Hw' E. apply lookup_insert_Some in Hk' as [[<- <-]|[Hne Hk']].
      * cbn in Hw'. injection Hw' as <-. apply Hin in E as [E|[[-> E]|[E _]]]; [| |by edestruct E].
        -- destruct (H1 _ _ _ E) as (L & _). lia.
        -- exists t. split; [done|]. destruct (H3 _ _ Hk Hw) as (lr & E1 & E2). rewrite last_reading_now, Hn in E1.
           injection E1 as <-. unfold ten. cbn [cn_exp]. lia.
      * apply Hin in E as [E|[[-> E]|[E _]]]; [eauto| |by edestruct E].
        injection E as -> ->. destruct (F2 _ _ _ Hk' Hw') as [L _]. lia.
    + intros k' c' Hk' Hw'. apply lookup_insert_Some in Hk' as [[<- <-]|[Hne Hk']]; [done|].
      rewrite Elr. destruct (H3 _ _ Hk' Hw') as (lr & E1 & E2). rewrite last_reading_now, Hn in E1. injection E1 as <-. eauto.
    + intros tt p tt' q msg wr E E'. apply Hin in E' as [E'|[[_ E']|[_ E']]]; [|done|by edestruct E'].
      apply Hin in E as [E|[[-> E]|[E _]]]; [eauto| |by edestruct E].
      injection E as -> ->. apply H5 in E'. lia.
    + intros tt' q msg wr E'. apply Hin in E' as [E'|[[_ E']|[_ E']]]; [|done|by edestruct E']. apply H5 in E'. lia.
    + intros tt p tt' p' wr E E'. apply Hin in E as [E|[[-> E]|[E _]]]; [| |by edestruct E];
      (apply Hin in E' as [E'|[[-> E']|[E' _]]]; [| |by edestruct E']).
      * eauto.
      * injection E' as -> ->. apply H1 in E as [? _]. lia.
      * injection E as -> ->. apply H1 in E' as [? _]. lia.
      * done.
  - clear Mono. destruct NI as (H1 & H2 & H3 & H4 & H5 & H6). destruct Inv as (_ & F2 & _).
    assert (Elr : last_reading (l ++ [ASend (qof cf k) (Some msg) wr]) = last_reading l) by apply last_reading_snoc.
    assert (Hin : forall tt x, (tt, x) ∈ stamped None (l ++ [ASend (qof cf k) (Some msg) wr]) ->
        (tt, x) ∈ stamped None l \/ (tt = last_reading l /\ x = ASend (qof cf k) (Some msg) wr)).
    { intros tt x. rewrite stamped_snoc. intros E. apply elem_of_app in E as [E|E]; [by left|].
      apply elem_of_list_singleton in E. right. by injection E as -> ->. }
    split; [|split; [|split; [|split; [|split]]]].
    + intros tt wr' p E. rewrite Elr. apply Hin in E as [E|[_ E]]; [eauto|done].
    + intros k' c' wr' tt p Hk' Hw' E. apply Hin in E as [E|[_ E]]; [eauto|done].
    + intros k' c' Hk' Hw'. rewrite Elr. eauto.
    + intros tt p tt' q msg' wr' E E'. apply Hin in E as [E|[_ E]]; [|done].
      apply Hin in E' as [E'|[-> E']]; [eauto|]. injection E' as -> -> ->.
      destruct (H1 _ _ _ E) as (L & tc & lr & -> & E2 & E3). rewrite E2. exists tc, lr. split; [done|]. split; [done|].
      split; [done|].
      destruct Ht as [(t & Et & Le)|(l' & b & dp & p' & md & El)].
      * rewrite last_reading_now, Et in E2. injection E2 as <-.
        destruct (H2 _ _ _ _ _ Hk Hw E) as (tc' & Etc & Hx). injection Etc as <-. lia.
      * assert (Hin2 : (last_reading l', ACreate wr p') ∈ stamped None l).
        { rewrite El, stamped_app. apply elem_of_app. right. cbn. destruct (last_reading l'); set_solver. }
        assert (El2 : last_reading l = last_reading l').
        { rewrite El, !last_reading_now, last_now_app. done. }
        pose proof (H6 _ _ _ _ _ E Hin2) as Et. rewrite <- El2, E2 in Et. injection Et as <-. unfold ten, minute, second. lia.
    + intros tt' q msg' wr' E'. apply Hin in E' as [E'|[_ E']]; [eauto|]. injection E' as -> -> ->. by eapply F2.
    + intros tt p tt' p' wr' E E'. apply Hin in E as [E|[_ E]]; [|done]. apply Hin in E' as [E'|[_ E']]; [eauto|done].
  - eapply tinv_snoc; [exact NI|done|done|done|eauto|eauto].
  - eapply tinv_snoc; [exact NI|done|done|done| |].
    + intros k' c' wr' Hk' Hw'. apply lookup_delete_Some in Hk' as [Hne Hk']; done.
    + intros k' c' Hk' Hw'. apply lookup_delete_Some in Hk' as [Hne Hk']; by left.
Qed.

(** ** Reachable states *)
Definition reached (s : saver) : Prop := csteps w cf new_saver s.
Lemma reached_finv s : reached s -> finv (core s).
Proof.
  intros H. unfold reached, csteps in H. assert (G : forall c c', rtc (cstep w cf) c c' -> finv c -> finv c').
  { induction 1 as [|c1 c2 c3 Hs _ IH]; [done|]. intros Hf. apply IH. by eapply finv_step. }
  eapply G; [exact H|apply finv_init].
Qed.
Lemma reached_all s : reached s -> finv (core s) /\ ninv (core s) /\ pinv (core s).
Proof.
  intros H. unfold reached, csteps in H.
  assert (G : forall c c', rtc (cstep w cf) c c' -> finv c /\ ninv c /\ pinv c -> finv c' /\ ninv c' /\ pinv c').
  { induction 1 as [|c1 c2 c3 Hs _ IH]; [done|]. intros (Hf & Hn & Hp). apply IH.
    split; [by eapply finv_step|]. split; [by eapply ninv_step|by eapply pinv_step]. }
  eapply G; [exact H|]. split; [apply finv_init|]. split.
  - split; [done|]. by intros k c Hk.
  - intros l1 wr p l2 E. cbn in E. by destruct l1.
Qed.

(** C19, C20 *)
Lemma file_histories s wr : reached s ->
  file_actions wr (s_log s) = [] \/ exists closed, file_history P wr closed (file_actions wr (s_log s)).
Proof.
  intros H. destruct (reached_finv s H) as (H1 & H2 & H3 & H4).
  destruct (le_lt_dec (p_writer (s_pos s)) wr) as [L|L]; [left; by apply H1|right].
  destruct (H3 wr L) as [(k & c & Hk & Hw)|(k & md & recs & path & E & Hlt & U & R)].
  - destruct (H2 _ _ _ Hk Hw) as (_ & md & recs & path & E & U & R).
    exists false, (qof cf k), k, md, recs, path. split; [done|]. split; [by eapply H4|done].
  - exists true, (qof cf k), k, md, recs, path. done.
Qed.
Lemma files_closed s wr : reached s -> (forall k c, s_conns s !! k = Some c -> cn_writer c = None) ->
  file_actions wr (s_log s) = [] \/ file_history P wr true (file_actions wr (s_log s)).
Proof.
  intros H Hn. destruct (reached_finv s H) as (H1 & H2 & H3 & H4).
  destruct (le_lt_dec (p_writer (s_pos s)) wr) as [L|L]; [left; by apply H1|right].
  destruct (H3 wr L) as [(k & c & Hk & Hw)|(k & md & recs & path & E & Hlt & U & R)].
  - rewrite (Hn _ _ Hk) in Hw. done.
  - exists (qof cf k), k, md, recs, path. done.
Qed.

(** C21 *)
Lemma files_numbered s k : reached s -> (k < two64)%N -> consecutive 0 (numbering P k (s_log s)).
Proof. intros H Hk. destruct (reached_all s H) as (_ & (H1 & _) & _). auto. Qed.
Lemma files_named s l1 wr p l2 : reached s -> s_log s = l1 ++ ACreate wr p :: l2 ->
  exists md l3, l2 = AHeader wr md :: l3 /\ names_file l1 p md.
Proof. intros H E. destruct (reached_all s H) as (_ & _ & Hp). by eapply Hp. Qed.
Lemma same_path_reopened s l1 wr1 wr2 p l2 l3 : reached s ->
  s_log s = l1 ++ ACreate wr1 p :: l2 ++ ACreate wr2 p :: l3 ->
  exists t k id dp n, AOpen t k id ∈ l2 /\ p = file_path dp (from_cookie P k) n.
Proof.
  intros H E. destruct (files_named s _ _ _ _ H E) as (md & l4 & E1 & k & t & Hk & U & _ & Hs & Hp).
  assert (E' : s_log s = (l1 ++ ACreate wr1 p :: l2) ++ ACreate wr2 p :: l3) by (rewrite E; by rewrite <- app_assoc).
  destruct (files_named s _ _ _ _ H E') as (md' & l5 & E2 & k' & t' & Hk' & U' & _ & Hs' & Hp').
  pose proof Hp as Hpp. rewrite Hp' in Hp. apply file_path_inj in Hp as (_ & -> & Hseq); [|done..].
  assert (md_seq md = md_seq md') as Eseq by lia.
  pose proof (files_numbered s k H Hk) as C.
  destruct l2 as [|a l2]; cbn in E1; [discriminate|]. injection E1 as -> E1. subst l3.
  rewrite E in C. change (ACreate wr1 p :: (AHeader wr1 md :: l2) ++ ACreate wr2 p :: AHeader wr2 md' :: l5)
    with ([ACreate wr1 p; AHeader wr1 md] ++ l2 ++ [ACreate wr2 p; AHeader wr2 md'] ++ l5) in C.
  rewrite !numbering_app in C.
  assert (N1 : numbering P k [ACreate wr1 p; AHeader wr1 md] = [Some (md_seq md)]).
  { cbn. by rewrite U, bytes_eqb_refl. }
  assert (N2 : numbering P k [ACreate wr2 p; AHeader wr2 md'] = [Some (md_seq md)]).
  { cbn. by rewrite U', bytes_eqb_refl, Eseq. }
  rewrite N1, N2 in C. cbn [app] in C. apply consecutive_repeat in C.
  unfold numbering in C. apply elem_of_list_omap in C as (a & Ha & Ea).
  destruct a; try done.
  - destruct (N.eqb_spec k0 k) as [->|]; [|done]. eexists _, _, _, _, _. split; [|exact Hpp].
    apply elem_of_list_further. exact Ha.
  - by destruct (bytes_eqb _ _).
Qed.

(** C22 *)
Lemma nondecreasing_app l1 l2 : nondecreasing (l1 ++ l2) -> nondecreasing l1.
Proof.
  revert l1. induction l2 as [|x l2 IH]; intros l1; [by rewrite app_nil_r|].
  change (x :: l2) with ([x] ++ l2). rewrite app_assoc. intros H. apply IH, nondecreasing_snoc in H. tauto.
Qed.
Lemma cstep_log c c' : cstep w cf c c' -> exists e, c'.2 = c.2 ++ e.
Proof. destruct 1; by eexists. Qed.
Lemma csteps_log c c' : rtc (cstep w cf) c c' -> exists e, c'.2 = c.2 ++ e.
Proof.
  induction 1 as [|c1 c2 c3 Hs _ IH]; [exists []; by rewrite app_nil_r|].
  destruct (cstep_log _ _ Hs) as [e He], IH as [e' He']. exists (e ++ e'). by rewrite He', He, app_assoc.
Qed.
Lemma reached_tinv s : reached s -> nondecreasing (readings (s_log s)) -> tinv (core s).
Proof.
  intros H Hm. unfold reached, csteps in H.
  assert (G : forall c c', rtc (cstep w cf) c c' -> finv c -> tinv c -> nondecreasing (readings c'.2) -> tinv c').
  { induction 1 as [|c1 c2 c3 Hs Hr IH]; [done|]. intros Hf Ht Hn. apply IH; [by eapply finv_step| |done].
    eapply tinv_step; [exact Hs|done|done|]. destruct (csteps_log _ _ Hr) as [e He]. rewrite He in Hn.
    rewrite readings_app in Hn. by eapply nondecreasing_app. }
  eapply G; [exact H|apply finv_init| |exact Hm].
  repeat split; cbn; intros; try done; by inversion H0.
Qed.
Lemma rotation_bound s tc p ts q msg wr : reached s -> nondecreasing (readings (s_log s)) ->
  (tc, ACreate wr p) ∈ stamped None (s_log s) -> (ts, ASend q (Some msg) wr) ∈ stamped None (s_log s) ->
  exists c t, tc = Some c /\ ts = Some t /\ (c <= t <= c + 10 * minute)%Z.
Proof. intros H Hm H1 H2. destruct (reached_tinv s H Hm) as (_ & _ & _ & HR & _). by eapply HR. Qed.

(** C17, without any assumption: no Open follows an Open directly *)
Definition einv (c : gmap N conn * nat * list action) : Prop :=
  let '(m, n, l) := c in
  forall k, (m !! k = None -> last (events k l) <> Some true) /\ forall a b, events k l <> a ++ [true; true] ++ b.
Lemma events_app k l1 l2 : events k (l1 ++ l2) = events k l1 ++ events k l2.
Proof. apply omap_app. Qed.
Lemma events_one_none k (m m' : gmap N conn) l e : events k e = [] -> (m' !! k = None -> m !! k = None) ->
  (m !! k = None -> last (events k l) <> Some true) /\ (forall a b, events k l <> a ++ [true; true] ++ b) ->
  (m' !! k = None -> last (events k (l ++ e)) <> Some true) /\ forall a b, events k (l ++ e) <> a ++ [true; true] ++ b.
Proof. rewrite events_app. intros -> Hm. rewrite app_nil_r. intros [H1 H2]. split; auto. Qed.
Lemma double_snoc (l : list bool) x a b : l ++ [x] = a ++ [true; true] ++ b ->
  (exists b', l = a ++ [true; true] ++ b') \/ (x = true /\ last l = Some true).
Proof.
  intros E. destruct b as [|y b _] using rev_ind.
  - right. rewrite app_nil_r in E. change [true; true] with ([true] ++ [true]) in E. rewrite app_assoc in E.
    apply app_inj_tail in E as [-> ->]. by rewrite last_snoc.
  - left. exists b. rewrite !app_assoc in E. apply app_inj_tail in E as [-> _]. by rewrite <- app_assoc.
Qed.
Lemma einv_step c c' : cstep w cf c c' -> einv c -> einv c'.
Proof.
  intros S. destruct S as
    [m n l a Ha|m n l k id t e Hk H0 Hlt Hid Hn|m n l k c wr t Hk Hw Hn He|m n l k c t dp t' Hk Hw Hn Hdp
    |m n l k c wr msg Hk Hw Hu Hck Ht|m n l k t|m n l k c wr Hk Hw Hcl]; intros Inv k'; specialize (Inv k').
  - eapply events_one_none; [|exact (fun x => x)|exact Inv]. by destruct a.
  - destruct Inv as [H1 H2]. rewrite events_app. cbn. destruct (N.eqb_spec k k') as [<-|Hne]; cbn.
    + split; [by rewrite lookup_insert|]. intros a b E. apply double_snoc in E as [[b' E]|[_ E]]; [by eapply H2|by apply H1 in Hk].
    + rewrite app_nil_r, lookup_insert_ne by done. auto.
  - eapply events_one_none; [done| |exact Inv].
    destruct (decide (k = k')) as [->|]; [by rewrite lookup_insert|by rewrite lookup_insert_ne].
  - eapply events_one_none; [done| |exact Inv].
    destruct (decide (k = k')) as [->|]; [by rewrite lookup_insert|by rewrite lookup_insert_ne].
  - eapply events_one_none; [done|exact (fun x => x)|exact Inv].
  - destruct Inv as [H1 H2]. rewrite events_app. cbn. destruct (N.eqb_spec k k') as [<-|Hne]; cbn.
    + split; [by rewrite last_snoc|]. intros a b E. apply double_snoc in E as [[b' E]|[? _]]; [by eapply H2|done].
    + rewrite app_nil_r. auto.
  - destruct Hcl as (l' & t & ->). destruct Inv as [H1 H2].
    assert (E : events k' ((l' ++ [AClose t k]) ++ [ASend (qof cf k) None wr]) = events k' (l' ++ [AClose t k])).
    { rewrite (events_app _ (l' ++ _)). by rewrite app_nil_r. }
    rewrite E. split; [|done]. destruct (decide (k = k')) as [<-|Hne].
    + intros _. rewrite events_app. cbn. rewrite N.eqb_refl. by rewrite last_snoc.
    + rewrite lookup_delete_ne by done. done.
Qed.
Lemma no_double_open s k a b : reached s -> events k (s_log s) <> a ++ [true; true] ++ b.
Proof.
  intros H. unfold reached, csteps in H. assert (G : forall c c', rtc (cstep w cf) c c' -> einv c -> einv c').
  { induction 1 as [|c1 c2 c3 Hs _ IH]; [done|]. intros Hf. apply IH. by eapply einv_step. }
  apply (G _ _ H). intros k'. split; [done|]. intros a' b' E. cbn in E. by destruct a'.
Qed.
End Files.
