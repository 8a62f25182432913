(** Effect of each job of the saver on the cache, the connection table and the
    log, when file operations succeed. *)
From stdpp Require Import gmap.
From Coq Require Import NArith ZArith Lia.
From Verif Require Import GoBase GoBaseFacts GoTime Inetdiag Netlink SpecNetlink SpecCompare RecordFacts CompareFacts
  Cache SpecCache CacheFacts Saver SpecSaver SaverSteps SaverFiles.

(** Everything but the connection table, the clock/file oracles and the log. *)
Definition same_rest (s s' : saver) : Prop :=
  s_cache s' = s_cache s /\ s_closing s' = s_closing s /\ s_ctotals s' = s_ctotals s /\ s_stats s' = s_stats s /\
  s_loop s' = s_loop s /\ s_dead s' = s_dead s /\ p_uid (s_pos s') = p_uid (s_pos s) /\ p_range (s_pos s') = p_range (s_pos s).
Lemma same_rest_refl s : same_rest s s. Proof. done. Qed.
Lemma same_rest_trans s1 s2 s3 : same_rest s1 s2 -> same_rest s2 s3 -> same_rest s1 s3.
Proof. unfold same_rest. intuition congruence. Qed.

Lemma queued_app l1 l2 : queued (l1 ++ l2) = queued l1 ++ queued l2.
Proof. apply omap_app. Qed.

Section Jobs.
Variables (w : world) (cf : config).

Lemma now_rest s t s' : now w s = (t, s') -> same_rest s s' /\ s_conns s' = s_conns s /\ s_log s' = s_log s ++ [ANow t].
Proof. unfold now. intros E. injection E as <- <-. done. Qed.

(** Rotation, whatever the outcome. *)
Lemma rotate_rest c s s' o : rotate w c s = (s', o) -> same_rest s s' /\ s_conns s' = s_conns s /\
  exists e, s_log s' = s_log s ++ e /\ (forall k, events k e = []) /\ queued e = [] /\
  (io_ok w -> exists c' wr, o = Some c' /\ cn_writer c' = Some wr) /\ (forall c', o = Some c' -> exists wr, cn_writer c' = Some wr).
Proof.
  unfold rotate. intros E.
  lazymatch type of E with context [let '(_, _) := ?x in _] =>
    assert (H1 : exists dp s1 e1, x = (dp, s1) /\ same_rest s s1 /\ s_conns s1 = s_conns s /\ s_log s1 = s_log s ++ e1 /\
                 (forall k, events k e1 = []) /\ queued e1 = []) end.
  { destruct (0 <? cn_seq c)%nat.
    - destruct (now w s) as [t s1] eqn:En. destruct (now_rest _ _ _ En) as (R & C & L).
      eexists _, _, _. split; [done|]. eauto 10.
    - eexists _, _, []. rewrite app_nil_r. done. }
  destruct H1 as (dp & s1 & e1 & H & R & C & L & Ev & Q). rewrite H in E. clear H.
  destruct (mkdir_ok w (p_mkdir (s_pos s1))) eqn:Em; cbn [negb] in E.
  - destruct (create_ok w _) eqn:Ec; cbn [negb] in E; injection E as <- <-.
    + split; [exact R|]. split; [exact C|]. eexists. split; [cbn; rewrite L, <- !app_assoc; cbn; reflexivity|].
      split; [intros k; rewrite events_app, Ev; done|]. split; [rewrite queued_app, Q; done|].
      split; [intros _; eexists _, _; done|]. intros c' E'. injection E' as <-. eauto.
    + split; [exact R|]. split; [exact C|]. eexists. split; [cbn; rewrite L, <- !app_assoc; cbn; reflexivity|].
      split; [intros k; rewrite events_app, Ev; done|]. split; [rewrite queued_app, Q; done|].
      split; [|done]. intros Hio. exfalso. destruct (Hio (p_create (s_pos s1))) as [_ E1]. cbn in Ec. congruence.
  - injection E as <- <-. split; [exact R|]. split; [exact C|]. eexists. split; [cbn; rewrite L, <- !app_assoc; cbn; reflexivity|].
    split; [intros k; rewrite events_app, Ev; done|]. split; [rewrite queued_app, Q; done|].
    split; [|done]. intros Hio. exfalso. destruct (Hio (p_mkdir (s_pos s1))) as [E1 _]. congruence.
Qed.

Lemma usable_parse msg : usable msg -> exists m, parse_idm (ar_raw (c_ar msg)) = Ret m /\ cookie (idiag_id m) = cookie_of msg.
Proof.
  unfold usable, cookie_of, header. destruct (ar_raw (c_ar msg)) as [raw|]; [|cbn; lia].
  intros H. destruct (sockid_fields raw H) as (m & E & _ & _ & _ & _ & Ec). eauto.
Qed.

(** queue, for a real cookie and at least one marshaller. *)
Lemma queue_effect msg s : usable msg -> cookie_of msg <> 0%N -> 1 <= nmarsh cf ->
  let s' := queue w cf msg s in let k := cookie_of msg in
  same_rest s s' /\
  exists e c', s_log s' = s_log s ++ e /\ s_conns s' = <[k := c']> (s_conns s) /\
    (forall k', events k' e = if decide (k' = k) then (match s_conns s !! k with None => [true] | Some _ => [] end) else []) /\
    (queued e = [] \/ queued e = [c_ar msg]) /\
    (io_ok w -> queued e = [c_ar msg] /\ exists wr, cn_writer c' = Some wr).
Proof.
  intros Hu H0 Hm. unfold queue. destruct (usable_parse msg Hu) as (m & -> & ->).
  set (k := cookie_of msg) in *.
  destruct (N.eqb_spec k 0); [done|]. destruct (Nat.ltb_spec (nmarsh cf) 1); [lia|].
  fold (qof cf k). cbn zeta.
  lazymatch goal with |- context [let '(_, _) := match s_conns s !! k with Some _ => _ | None => _ end in _] => idtac end.
  set (X := match s_conns s !! k with Some c => (c, s) | None => _ end).
  assert (H1 : exists c s1 e1, X = (c, s1) /\ same_rest s s1 /\ s_conns s1 = <[k := c]> (s_conns s) /\ s_log s1 = s_log s ++ e1 /\
      (forall k', events k' e1 = if decide (k' = k) then (match s_conns s !! k with None => [true] | Some _ => [] end) else []) /\ queued e1 = []).
  { unfold X. destruct (s_conns s !! k) as [c|] eqn:Ek.
    - exists c, s, []. rewrite app_nil_r, insert_id by done. repeat split; try done. intros k'. by case_decide.
    - destruct (now w s) as [t s1] eqn:En. destruct (now_rest _ _ _ En) as (R & C & L).
      eexists _, _, _. split; [done|]. split; [done|]. split; [cbn; by rewrite C|].
      split; [cbn; rewrite L, <- app_assoc; reflexivity|]. split; [|done].
      intros k'. cbn. destruct (N.eqb_spec k k'); case_decide; done. }
  destruct H1 as (c & s1 & e1 & -> & R1 & C1 & L1 & E1 & Q1).
  destruct (now w s1) as [t s2] eqn:En. destruct (now_rest _ _ _ En) as (R2 & C2 & L2).
  set (Y := match cn_writer c with Some _ => _ | None => _ end).
  assert (H2 : exists c2 s3 e2, Y = (c2, s3) /\ same_rest s s3 /\ s_conns s3 = <[k := c2]> (s_conns s) /\ s_log s3 = s_log s ++ e2 /\
      (forall k', events k' e2 = if decide (k' = k) then (match s_conns s !! k with None => [true] | Some _ => [] end) else []) /\ queued e2 = []).
  { assert (R12 : same_rest s s2) by (eapply same_rest_trans; eauto).
    assert (C12 : s_conns s2 = <[k := c]> (s_conns s)) by congruence.
    assert (L12 : s_log s2 = s_log s ++ (e1 ++ [ANow t])) by (rewrite L2, L1; by rewrite app_assoc).
    assert (Ev : forall k', events k' (e1 ++ [ANow t]) = events k' e1) by (intros k'; rewrite events_app; by rewrite app_nil_r).
    assert (Qv : queued (e1 ++ [ANow t]) = []) by (rewrite queued_app, Q1; done).
    unfold Y. destruct (cn_writer c) as [wr|].
    - destruct (_ <? _)%Z.
      + eexists _, _, _. split; [done|]. split; [exact R12|].
        split; [cbn; rewrite C12; by rewrite insert_insert|].
        split; [cbn; rewrite L12, <- app_assoc; reflexivity|].
        split; [intros k'; rewrite events_app, Ev, E1; by rewrite app_nil_r|by rewrite queued_app, Qv].
      + eexists _, _, _. split; [done|]. split; [exact R12|]. split; [exact C12|]. split; [exact L12|].
        split; [intros k'; by rewrite Ev, E1|done].
    - eexists _, _, _. split; [done|]. split; [exact R12|]. split; [exact C12|]. split; [exact L12|].
      split; [intros k'; by rewrite Ev, E1|done]. }
  destruct H2 as (c2 & s3 & e2 & -> & R3 & C3 & L3 & E3 & Q3).
  destruct (cn_writer c2) as [wr|] eqn:Ew.
  - split; [exact R3|]. eexists _, c2. split; [cbn; rewrite L3, <- app_assoc; reflexivity|].
    split; [exact C3|]. split; [intros k'; rewrite events_app, E3; by rewrite app_nil_r|].
    rewrite queued_app, Q3. split; [by right|]. intros _. split; [done|]. eauto.
  - destruct (rotate w c2 s3) as [s4 o] eqn:Er. destruct (rotate_rest _ _ _ _ Er) as (R4 & C4 & e4 & L4 & E4 & Q4 & Ok & Wr).
    assert (R : same_rest s s4) by (eapply same_rest_trans; eauto).
    destruct o as [c4|].
    + destruct (Wr c4 eq_refl) as [wr Ew4]. rewrite Ew4. split; [exact R|]. eexists _, c4.
      split; [cbn; rewrite L4, L3, <- !app_assoc; reflexivity|].
      split; [cbn; rewrite C4, C3; by rewrite insert_insert|].
      split; [intros k'; rewrite !events_app, E3, E4; by rewrite app_nil_r|].
      rewrite !queued_app, Q3, Q4. split; [by right|]. intros _. split; [done|]. eauto.
    + split; [exact R|]. eexists _, c2. split; [rewrite L4, L3, <- !app_assoc; reflexivity|].
      split; [by rewrite C4|]. split; [intros k'; rewrite !events_app, E3, E4; by rewrite app_nil_r|].
      rewrite !queued_app, Q3, Q4. split; [by left|]. intros Hio. destruct (Ok Hio) as (? & ? & ? & _). done.
Qed.

Lemma queue_zero msg s : usable msg -> cookie_of msg = 0%N -> queue w cf msg s = s.
Proof. intros Hu H0. unfold queue. destruct (usable_parse msg Hu) as (m & -> & ->). by rewrite H0. Qed.
Lemma queue_none msg s : usable msg -> nmarsh cf = 0 -> queue w cf msg s = s.
Proof.
  intros Hu H0. unfold queue. destruct (usable_parse msg Hu) as (m & -> & ->). rewrite H0.
  by destruct (N.eqb _ _).
Qed.

(** endConn, with at least one marshaller. *)
Lemma end_conn_effect k s : 1 <= nmarsh cf ->
  let s' := end_conn w cf k s in
  same_rest s s' /\
  exists e, s_log s' = s_log s ++ e /\ queued e = [] /\
    (forall k', events k' e = if decide (k' = k) then [false] else []) /\
    s_conns s' = match s_conns s !! k with
                 | Some c => match cn_writer c with Some _ => delete k (s_conns s) | None => s_conns s end
                 | None => s_conns s end.
Proof.
  intros Hm. unfold end_conn. destruct (now w s) as [t s1] eqn:En. destruct (now_rest _ _ _ En) as (R1 & C1 & L1).
  cbn zeta. destruct (Nat.eqb_spec (nmarsh cf) 0); [lia|]. cbn [s_conns emit]. rewrite C1.
  assert (HL : forall e2, (forall k', events k' e2 = []) -> forall k', events k' ([ANow t; AClose t k] ++ e2)
     = if decide (k' = k) then [false] else []).
  { intros e2 H2 k'. rewrite events_app, H2, app_nil_r. cbn. destruct (N.eqb_spec k k'); case_decide; done. }
  destruct (s_conns s !! k) as [c|] eqn:Ek; [destruct (cn_writer c) as [wr|] eqn:Ew|].
  - split; [exact R1|]. eexists. split; [cbn; rewrite L1, <- !app_assoc; reflexivity|].
    split; [done|]. split; [intros k'; by apply (HL [ASend (qof cf k) None wr])|]. done.
  - split; [exact R1|]. eexists. split; [cbn; rewrite L1, <- !app_assoc; reflexivity|].
    split; [done|]. split; [intros k'; by apply (HL [])|]. done.
  - split; [exact R1|]. eexists. split; [cbn; rewrite L1, <- !app_assoc; reflexivity|].
    split; [done|]. split; [intros k'; by apply (HL [])|]. done.
Qed.
End Jobs.
