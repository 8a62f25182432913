(** When files are started (C22). *)
From stdpp Require Import gmap relations.
From Coq Require Import NArith ZArith Lia.
From Verif Require Import GoBase GoTime Netlink SpecNetlink Cache SpecCache Saver SpecSaver SaverSteps SaverFiles.

Section Rotation.
Variables (w : world) (cf : config).
Local Notation P := (uuid_prefix w).

Lemma opened_snoc k l a : opened_at k (l ++ [a]) =
  match a with
  | AOpen _ k' _ => if N.eqb k' k then match last_reading l with Some e => Some e | None => opened_at k l end else opened_at k l
  | _ => opened_at k l
  end.
Proof.
  unfold opened_at. rewrite stamped_snoc, omap_app. 
  destruct a as [|t k' id| | | | | | | | | | | | | | | ]; cbn; try (by rewrite app_nil_r).
  destruct (N.eqb k' k); [|by rewrite app_nil_r]. destruct (last_reading l); [|by rewrite app_nil_r]. by rewrite last_snoc.
Qed.
Lemma opened_four k l b dp n p md : opened_at k (l ++ [AMkdir b dp; ACreate n p; AHeader n md; ANewFile]) = opened_at k l.
Proof.
  replace (l ++ [AMkdir b dp; ACreate n p; AHeader n md; ANewFile])
    with ((((l ++ [AMkdir b dp]) ++ [ACreate n p]) ++ [AHeader n md]) ++ [ANewFile]) by (by rewrite <- !app_assoc).
  by rewrite !opened_snoc.
Qed.
Lemma opened_two k l b dp n p : opened_at k (l ++ [AMkdir b dp; ACreate n p]) = opened_at k l.
Proof.
  replace (l ++ [AMkdir b dp; ACreate n p]) with ((l ++ [AMkdir b dp]) ++ [ACreate n p]) by (by rewrite <- !app_assoc).
  by rewrite !opened_snoc.
Qed.

(** A file with number n is started n times ten minutes after the Open, or later. *)
Definition late (l1 : list action) (md : metadata) : Prop :=
  exists k e t, (k < two64)%N /\ md_uuid md = from_cookie P k /\ opened_at k l1 = Some e /\ last_reading l1 = Some t /\
    (0 <= md_seq md)%Z /\ ((0 < md_seq md)%Z -> (e + md_seq md * (10 * minute) < t)%Z).
Definition uinv (c : gmap N conn * nat * list action) : Prop :=
  let '(m, n, l) := c in
  (forall k c, m !! k = Some c -> exists e, opened_at k l = Some e /\ cn_exp c = (e + Z.of_nat (cn_seq c) * ten)%Z /\
      (cn_writer c = None -> 0 < cn_seq c -> exists lr, last_reading l = Some lr /\ (cn_exp c < lr)%Z)) /\
  (forall l1 wr md l2, l = l1 ++ AHeader wr md :: l2 -> late l1 md).

Lemma late_snoc l a : (forall wr md, a <> AHeader wr md) ->
  (forall l1 wr md l2, l = l1 ++ AHeader wr md :: l2 -> late l1 md) ->
  (forall l1 wr md l2, l ++ [a] = l1 ++ AHeader wr md :: l2 -> late l1 md).
Proof.
  intros Ha H l1 wr md l2 E. apply app_eq_inv in E as [(k & E1 & E2)|(k & E1 & E2)].
  - destruct k as [|x k]; cbn in E2; [injection E2 as E2 _; symmetry in E2; by apply Ha in E2|].
    injection E2 as <- ->. by eapply H.
  - destruct k as [|x k]; cbn in E2; [injection E2 as E2 _; by apply Ha in E2|].
    injection E2 as _ E2. by destruct k.
Qed.

Lemma uinv_snoc m m' n n' l a : uinv (m, n, l) -> (forall wr md, a <> AHeader wr md) ->
  (forall t k id, a <> AOpen t k id) ->
  (forall t, a = ANow t -> forall lr, last_reading l = Some lr -> (lr <= t)%Z) ->
  (forall k c, m' !! k = Some c -> exists c0, m !! k = Some c0 /\ cn_exp c = cn_exp c0 /\ cn_seq c = cn_seq c0 /\
     (cn_writer c = None -> cn_writer c0 = None \/ exists lr, last_reading l = Some lr /\ (cn_exp c0 < lr)%Z)) ->
  uinv (m', n', l ++ [a]).
Proof.
  intros (H1 & H2) Ha Ho Hn Hm. split; [|by apply late_snoc].
  assert (Hlr : forall lr, last_reading l = Some lr -> exists lr', last_reading (l ++ [a]) = Some lr' /\ (lr <= lr')%Z).
  { intros lr E. rewrite last_reading_snoc. destruct a; try (exists lr; split; [done|lia]). exists t. split; [done|]. by eapply Hn. }
  intros k c Hk. destruct (Hm k c Hk) as (c0 & Hk0 & -> & -> & Hw). destruct (H1 _ _ Hk0) as (e & E1 & E2 & E3).
  exists e. rewrite opened_snoc. split; [destruct a; try exact E1; by destruct (Ho _ _ _ eq_refl)|]. split; [exact E2|].
  intros Hw' Hs. assert (exists lr, last_reading l = Some lr /\ (cn_exp c0 < lr)%Z) as (lr & L1 & L2).
  { destruct (Hw Hw') as [Hw0|Hw0]; [by apply E3|exact Hw0]. }
  destruct (Hlr _ L1) as (lr' & L3 & L4). exists lr'. split; [exact L3|lia].
Qed.

Lemma uinv_step c c' : cstep w cf c c' -> finv w cf c -> uinv c -> nondecreasing (readings c'.2) -> uinv c'.
Proof.
  intros S. destruct S as
    [m n l a Ha|m n l k id t e Hk H0 Hlt Hid Hn|m n l k c wr t Hk Hw Hn He|m n l k c t dp t' Hk Hw Hn Hdp
    |m n l k c wr msg Hk Hw Hu Hck Ht|m n l k t|m n l k c wr Hk Hw Hcl]; intros Inv NI Mono.
  - eapply uinv_snoc; [exact NI|by intros ? ? ->|by intros ? ? ? ->| |].
    + intros t -> lr E. cbn in Mono. rewrite readings_app in Mono. cbn in Mono. apply nondecreasing_snoc in Mono as [_ M]. auto.
    + intros k c Hk. exists c. split; [exact Hk|]. split; [reflexivity|]. split; [reflexivity|]. by left.
  - destruct NI as (H1 & H2). split; [|by apply late_snoc]. intros k' c' Hk'. rewrite opened_snoc, last_reading_now, Hn.
    apply lookup_insert_Some in Hk' as [[<- <-]|[Hne Hk']].
    + rewrite N.eqb_refl. exists e. cbn [cn_exp cn_seq cn_writer]. split; [reflexivity|]. split; [lia|]. lia.
    + destruct (N.eqb_spec k k'); [done|]. destruct (H1 _ _ Hk') as (e' & E1 & E2 & E3). exists e'.
      rewrite last_reading_snoc. done.
  - eapply uinv_snoc; [exact NI|done|done|done|].
    intros k' c' Hk'. apply lookup_insert_Some in Hk' as [[<- <-]|[Hne Hk']].
    + exists c. split; [exact Hk|]. split; [reflexivity|]. split; [reflexivity|]. intros _. right. exists t. by rewrite last_reading_now.
    + exists c'. split; [exact Hk'|]. split; [reflexivity|]. split; [reflexivity|]. by left.
  - clear Mono. destruct NI as (H1 & H2). destruct Inv as (_ & _ & _ & F4).
    set (path := file_path _ _ _). set (md := mkmeta _ _ _). destruct (H1 _ _ Hk) as (e & E1 & E2 & E3). split.
    + intros k' c' Hk'. rewrite opened_four. apply lookup_insert_Some in Hk' as [[<- <-]|[Hne Hk']].
      * exists e. cbn [cn_exp cn_seq cn_writer]. split; [exact E1|]. split; [unfold ten in *; lia|discriminate].
      * destruct (H1 _ _ Hk') as (e' & E1' & E2' & E3'). exists e'. split; [exact E1'|]. split; [exact E2'|].
        intros Hw' Hs. destruct (E3' Hw' Hs) as (lr & L1 & L2). exists lr. split; [|exact L2].
        rewrite last_reading_now in *. rewrite last_now_app. exact L1.
    + intros l1 wr md' l2 E. apply app_eq_inv in E as [(x & X1 & X2)|(x & X1 & X2)].
      * destruct x as [|y x]; cbn in X2; [discriminate|]. injection X2 as <- ->. by eapply H2.
      * destruct x as [|y x]; cbn in X2; [discriminate|]. injection X2 as <- X2.
        destruct x as [|y x]; cbn in X2; [discriminate|]. injection X2 as <- X2.
        destruct x as [|y x]; cbn in X2.
        -- injection X2 as <- <- <-. rewrite X1. destruct (F4 _ _ Hk) as (Hlt & H0 & Hid).
           exists k, e, t. split; [exact Hlt|]. split; [unfold md; cbn; by rewrite Hid|]. rewrite opened_two. split; [exact E1|].
           split; [rewrite last_reading_now, last_now_app; exact Hn|]. unfold md. cbn [md_seq]. split; [lia|]. intros Hs.
           destruct (E3 Hw ltac:(lia)) as (lr & L1 & L2). rewrite last_reading_now, Hn in L1. injection L1 as <-.
           unfold ten in E2. lia.
        -- injection X2 as <- X2. destruct x as [|y x]; cbn in X2; [discriminate|]. injection X2 as <- X2. by destruct x.
  - eapply uinv_snoc; [exact NI|done|done|done|].
    intros k' c' Hk'. exists c'. split; [exact Hk'|]. split; [reflexivity|]. split; [reflexivity|]. by left.
  - eapply uinv_snoc; [exact NI|done|done|done|].
    intros k' c' Hk'. exists c'. split; [exact Hk'|]. split; [reflexivity|]. split; [reflexivity|]. by left.
  - eapply uinv_snoc; [exact NI|done|done|done|].
    intros k' c' Hk'. apply lookup_delete_Some in Hk' as [Hne Hk'].
    exists c'. split; [exact Hk'|]. split; [reflexivity|]. split; [reflexivity|]. by left.
Qed.

Lemma started_late s l1 wr md l2 : reached w cf s -> nondecreasing (readings (s_log s)) ->
  s_log s = l1 ++ AHeader wr md :: l2 -> late l1 md.
Proof.
  intros H Hm E. assert (U : uinv (core s)); [|by eapply U].
  assert (G : forall c c', rtc (cstep w cf) c c' -> finv w cf c -> uinv c -> nondecreasing (readings c'.2) -> uinv c').
  { induction 1 as [|c1 c2 c3 Hs Hr IH]; [done|]. intros Hf Hu Hm3. apply IH; [by eapply finv_step| |exact Hm3].
    eapply uinv_step; [exact Hs|exact Hf|exact Hu|]. destruct (csteps_log w cf _ _ Hr) as [e El]. rewrite El, readings_app in Hm3. by eapply nondecreasing_app. }
  eapply G; [exact H|apply finv_init| |exact Hm]. split; [by intros k c Hk|]. intros l1' wr' md' l2' E'. cbn in E'. by destruct l1'.
Qed.
End Rotation.
