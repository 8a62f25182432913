(** What the jobs of the saver goroutine add to the log, to the cache and to the
    set of records in use. *)
From stdpp Require Import gmap.
From Coq Require Import NArith ZArith Lia.
From Verif Require Import GoBase GoBaseFacts GoTime Inetdiag Netlink SpecNetlink SpecCompare RecordFacts CompareFacts
  Cache SpecCache CacheFacts Saver SpecSaver SaverSteps SaverFiles SaverJobs SaverBlocks SaverRuns System SystemViews.

(** The records sent, and the actions that end everything. *)
Definition sent (l : list action) : list cell := omap (fun a => match a with ASend _ (Some c) _ => Some c | _ => None end) l.
Definition is_chan (a : action) : bool := match a with ACloseChan _ | ADone => true | _ => false end.
Lemma sent_app a b : sent (a ++ b) = sent a ++ sent b. Proof. apply omap_app. Qed.
Lemma sent_in q c wr l : ASend q (Some c) wr ∈ l -> c ∈ sent l.
Proof. intros H. apply elem_of_list_omap. by eexists. Qed.

Definition adds (cs : list cell) (s s' : saver) : Prop := exists e,
  s_log s' = s_log s ++ e /\ sent e = cs /\ existsb is_chan e = false /\
  s_cache s' = s_cache s /\ p_uid (s_pos s') = p_uid (s_pos s).
Lemma adds_refl s : adds [] s s. Proof. exists []. by rewrite app_nil_r. Qed.
Lemma adds_trans a b s1 s2 s3 : adds a s1 s2 -> adds b s2 s3 -> adds (a ++ b) s1 s3.
Proof.
  intros (e1 & L1 & S1 & C1 & A1 & P1) (e2 & L2 & S2 & C2 & A2 & P2). exists (e1 ++ e2).
  rewrite L2, L1, app_assoc, sent_app, S1, S2, existsb_app, C1, C2. repeat split; congruence.
Qed.
Lemma adds_trans0 b s1 s2 s3 : adds [] s1 s2 -> adds b s2 s3 -> adds b s1 s3.
Proof. apply (adds_trans [] b). Qed.
Lemma adds_quiet s s' : s_log s' = s_log s -> s_cache s' = s_cache s -> p_uid (s_pos s') = p_uid (s_pos s) -> adds [] s s'.
Proof. intros L C P. exists []. by rewrite app_nil_r. Qed.

Section Jobs.
Variables (w : world) (cf : config).

Lemma now_adds s : adds [] s (now w s).2.
Proof. unfold now. cbn. exists [ANow (clock w (p_clock (s_pos s)))]. done. Qed.
Lemma rotate_adds c s : adds [] s (rotate w c s).1.
Proof.
  unfold rotate.
  lazymatch goal with |- context [let '(_, _) := ?x in _] => assert (H : adds [] s x.2) end.
  { destruct (0 <? cn_seq c)%nat; [|apply adds_refl]. pose proof (now_adds s) as N. destruct (now w s) as [t s1]. exact N. }
  lazymatch goal with |- context [let '(_, _) := ?x in _] => destruct x as [dp s1] end. cbn [snd] in H.
  eapply adds_trans0; [exact H|]. clear H.
  destruct (negb (mkdir_ok w _)). { exists [AMkdir (mkdir_ok w (p_mkdir (s_pos s1))) dp]. done. }
  destruct (negb (create_ok w _)); (eexists; split; [cbn; rewrite <- ?app_assoc; reflexivity|]; done).
Qed.
Lemma queue_adds msg s : adds [] s (queue w cf msg s) \/ adds [msg] s (queue w cf msg s).
Proof.
  unfold queue. destruct (parse_idm (ar_raw (c_ar msg))) as [m|e| |]; [|left; by apply adds_quiet..].
  destruct (N.eqb _ 0); [left; apply adds_refl|]. destruct (_ <? 1)%nat; [left; apply adds_refl|]. cbn zeta.
  lazymatch goal with |- context [let '(_, _) := ?x in _] => assert (H1 : adds [] s x.2) end.
  { destruct (s_conns s !! _) as [c|]; [apply adds_refl|]. pose proof (now_adds s) as N. destruct (now w s) as [t s1]. cbn [snd] in *.
    eapply adds_trans0; [exact N|]. eexists [_]. done. }
  lazymatch goal with |- context [let '(_, _) := ?x in _] => destruct x as [c s1] end. cbn [snd] in H1.
  assert (G : forall s', adds [] s1 s' \/ adds [msg] s1 s' -> adds [] s s' \/ adds [msg] s s').
  { intros s' [H|H]; [left|right]; eapply adds_trans0; eassumption. }
  apply G. clear G H1 s. pose proof (now_adds s1) as N. destruct (now w s1) as [t s2]. cbn [snd] in N.
  assert (G : forall s', adds [] s2 s' \/ adds [msg] s2 s' -> adds [] s1 s' \/ adds [msg] s1 s').
  { intros s' [H|H]; [left|right]; eapply adds_trans0; eassumption. }
  apply G. clear G N s1.
  lazymatch goal with |- context [let '(_, _) := ?x in _] => assert (H1 : adds [] s2 x.2) end.
  { destruct (cn_writer c) as [wr|]; [|apply adds_refl]. destruct (_ <? _)%Z; [|apply adds_refl]. eexists [_]. done. }
  lazymatch goal with |- context [let '(_, _) := ?x in _] => destruct x as [c2 s3] end. cbn [snd] in H1.
  assert (G : forall s', adds [] s3 s' \/ adds [msg] s3 s' -> adds [] s2 s' \/ adds [msg] s2 s').
  { intros s' [H|H]; [left|right]; eapply adds_trans0; eassumption. }
  apply G. clear G H1 s2 t c.
  destruct (cn_writer c2) as [wr|]. { right. eexists [_]. done. }
  pose proof (rotate_adds c2 s3) as R. destruct (rotate w c2 s3) as [s4 [c'|]]; cbn [fst] in R.
  - destruct (cn_writer c') as [wr|].
    + right. eapply adds_trans0; [exact R|]. eexists [_]. done.
    + left. eapply adds_trans0; [exact R|]. by apply adds_quiet.
  - left. exact R.
Qed.
Lemma end_conn_adds k s : adds [] s (end_conn w cf k s).
Proof.
  unfold end_conn. pose proof (now_adds s) as N. destruct (now w s) as [t s1]. cbn [snd] in N.
  eapply adds_trans0; [exact N|]. destruct (Nat.eqb _ 0). { eexists [_]. done. }
  cbn [s_conns emit]. destruct (s_conns s1 !! k) as [c|]; [|by eexists [_]].
  destruct (cn_writer c) as [wr|]; [|by eexists [_]]. eexists [_; _]. cbn. rewrite <- app_assoc. done.
Qed.
Lemma report_adds t s : adds [] s (report t s).
Proof.
  unfold report. destruct (s_dead s); [apply adds_refl|]. destruct (_ <? _)%Z; [|by apply adds_quiet].
  unfold report_one. destruct (_ || _), (_ || _); (eexists [_; _]; cbn; rewrite <- app_assoc; done).
Qed.
Lemma close_one_adds view km s : adds [] s (close_one w cf view km s).
Proof.
  unfold close_one. destruct (s_dead s); [apply adds_refl|]. destruct km as [k m].
  lazymatch goal with |- context [let '(_, _) := ?x in _] => assert (H : adds [] s x.2) end.
  { destruct (negb _); [|apply adds_refl]. destruct (s_closing s !! k); by apply adds_quiet. }
  lazymatch goal with |- context [let '(_, _) := ?x in _] => destruct x as [st s1] end. cbn [snd] in H.
  eapply adds_trans0; [exact H|]. set (s2 := with_loop _ s1).
  assert (H2 : adds [] s1 s2) by (by apply adds_quiet). eapply adds_trans0; [exact H2|].
  pose proof (end_conn_adds k s2) as E. destruct (s_dead (end_conn w cf k s2)); [exact E|].
  change (@nil cell) with (@nil cell ++ []). eapply adds_trans; [exact E|by apply adds_quiet].
Qed.

(** Messages: at most one new record. *)
Definition in_cache (c : cell) (s : saver) : Prop :=
  exists k, cur (s_cache s) !! k = Some c \/ prev (s_cache s) !! k = Some c.
Lemma update_cells c pm o c' x : update c pm = (o, c') ->
  (exists k, cur c' !! k = Some x \/ prev c' !! k = Some x) ->
  x = pm \/ exists k, cur c !! k = Some x \/ prev c !! k = Some x.
Proof.
  unfold update. destruct (record_cookie (c_ar pm)) as [k|e| |]; intros E; try (injection E as _ <-; by right).
  assert (D : forall k', <[k := pm]> (cur c) !! k' = Some x -> x = pm \/ exists k, cur c !! k = Some x \/ prev c !! k = Some x).
  { intros k'. destruct (decide (k = k')) as [->|N].
    - rewrite lookup_insert. intros [= ->]. by left.
    - rewrite lookup_insert_ne by done. intros H. right. exists k'. by left. }
  destruct (prev c !! k) as [y|] eqn:Ep; injection E as _ <-; cbn [cur prev]; intros (k' & [H|H]); eauto.
  right. exists k'. right. apply lookup_delete_Some in H as [_ H]. exact H.
Qed.
Lemma swap_effect view pm s : (adds [] s (with_cache (s_cache s) (swap_and_queue w cf view pm s)) \/
    adds [pm] s (with_cache (s_cache s) (swap_and_queue w cf view pm s))) /\
  (forall c, in_cache c (swap_and_queue w cf view pm s) -> c = pm \/ in_cache c s).
Proof.
  unfold swap_and_queue. destruct (update (s_cache (inc_total s)) pm) as [o c] eqn:E.
  change (s_cache (inc_total s)) with (s_cache s) in E.
  assert (Q : forall s1, s_log s1 = s_log s -> p_uid (s_pos s1) = p_uid (s_pos s) -> s_cache s1 = c ->
    (adds [] s (with_cache (s_cache s) (queue w cf pm (emit ASnapshot s1))) \/
     adds [pm] s (with_cache (s_cache s) (queue w cf pm (emit ASnapshot s1)))) /\
    (forall x, in_cache x (queue w cf pm (emit ASnapshot s1)) -> x = pm \/ in_cache x s)).
  { intros s1 L P C.
    assert (A : forall cs, adds cs (emit ASnapshot s1) (queue w cf pm (emit ASnapshot s1)) ->
      adds cs s (with_cache (s_cache s) (queue w cf pm (emit ASnapshot s1)))).
    { intros cs (e & L1 & S1 & C1 & _ & P1). exists (ASnapshot :: e). cbn [s_log with_cache s_pos s_cache].
      rewrite L1. cbn [s_log emit]. rewrite L, <- app_assoc. split; [reflexivity|]. split; [exact S1|]. split; [exact C1|].
      split; [reflexivity|]. rewrite P1. cbn. exact P. }
    destruct (queue_adds pm (emit ASnapshot s1)) as [H|H]; (split; [|]).
    - left. by apply A.
    - intros x Hx. destruct H as (_ & _ & _ & _ & H & _). unfold in_cache in Hx. rewrite H in Hx. cbn in Hx. rewrite C in Hx.
      exact (update_cells _ _ _ _ _ E Hx).
    - right. by apply A.
    - intros x Hx. destruct H as (_ & _ & _ & _ & H & _). unfold in_cache in Hx. rewrite H in Hx. cbn in Hx. rewrite C in Hx.
      exact (update_cells _ _ _ _ _ E Hx). }
  assert (N : forall s1, s_log s1 = s_log s -> p_uid (s_pos s1) = p_uid (s_pos s) -> s_cache s1 = s_cache s \/ s_cache s1 = c ->
    (adds [] s (with_cache (s_cache s) s1) \/ adds [pm] s (with_cache (s_cache s) s1)) /\
    (forall x, in_cache x s1 -> x = pm \/ in_cache x s)).
  { intros s1 L P C. split; [left; by apply adds_quiet|]. intros x Hx. unfold in_cache in Hx. destruct C as [C|C]; rewrite C in Hx; [by right|].
    exact (update_cells _ _ _ _ _ E Hx). }
  destruct o as [[oldc|]|e| |]; [|apply Q; reflexivity|apply N; [reflexivity..|by left]|apply N; [reflexivity..|by left]|apply N; [reflexivity..|by left]].
  destruct (parse_idm (ar_raw (c_ar pm))) as [m|e| |]; [|apply N; [reflexivity..|by right]..].
  set (s1 := if _ && _ then _ else _).
  assert (E1 : s_log s1 = s_log s /\ p_uid (s_pos s1) = p_uid (s_pos s) /\ s_cache s1 = c).
  { unfold s1. destruct (_ && _); repeat split. }
  destruct E1 as (L1 & P1 & C1). clearbody s1.
  assert (Q1 := Q (inc_diff s1) L1 P1 C1). assert (N1 := N s1 L1 P1 (or_intror C1)).
  assert (N2 := N (crash s1) L1 P1 (or_intror C1)). clear Q N.
  destruct (compare (c_ar pm) (Some (view oldc))) as [ch|e| |]; [|exact N1|exact N2|exact N2].
  destruct ch; [exact N1|exact Q1..].
Qed.
Lemma handle_effect view t m s :
  (adds [] s (handle_msg w cf view t m s) \/
   exists ar, let pm := mkcell (p_uid (s_pos s)) ar in let s' := handle_msg w cf view t m s in
     (exists msg ar0, m = Some msg /\ make_archival_record msg (excl cf) = Ret (Some ar0) /\ ar = mkar t (ar_raw ar0) (ar_attrs ar0) (ar_meta ar0)) /\
     p_uid (s_pos s') = S (p_uid (s_pos s)) /\ (forall c, in_cache c s' -> c = pm \/ in_cache c s) /\
     exists e, s_log s' = s_log s ++ e /\ existsb is_chan e = false /\ (sent e = [] \/ sent e = [pm])).
Proof.
  unfold handle_msg. destruct (s_dead s); [left; apply adds_refl|]. destruct m as [msg|]; [|left; apply adds_refl].
  destruct (make_archival_record msg (excl cf)) as [[ar|]|e| |] eqn:E; [|left; apply adds_refl|left; apply adds_refl|left; by apply adds_quiet..].
  right. exists (mkar t (ar_raw ar) (ar_attrs ar) (ar_meta ar)). cbn zeta.
  split; [by exists msg, ar|].
  set (s1 := with_loop _ _). set (pm := mkcell _ _).
  assert (P1 : p_uid (s_pos s1) = S (p_uid (s_pos s))) by reflexivity. assert (L1 : s_log s1 = s_log s) by reflexivity.
  assert (C1 : s_cache s1 = s_cache s) by reflexivity. clearbody s1 pm.
  destruct (swap_effect view pm s1) as [A B]. split; [|split].
  - destruct A as [(e & _ & _ & _ & _ & A)|(e & _ & _ & _ & _ & A)]; cbn in A; congruence.
  - intros c Hc. destruct (B c Hc) as [->|H]; [by left|right]. unfold in_cache in *. by rewrite <- C1.
  - destruct A as [(e & A1 & A2 & A3 & _)|(e & A1 & A2 & A3 & _)]; cbn [s_log with_cache] in A1; exists e; rewrite A1, L1; auto.
Qed.
Lemma end_round_effect s : adds [] s (with_cache (s_cache s) (end_round w s).2) /\
  (forall c, in_cache c (end_round w s).2 -> in_cache c s) /\
  (forall k c, (k, c) ∈ (end_round w s).1 -> in_cache c s).
Proof.
  unfold end_round. destruct (s_dead s). { split; [by apply adds_quiet|]. split; [done|]. intros k c H. by apply elem_of_nil in H. }
  cbn. split; [by eexists [_]|]. split.
  - intros c (k & [H|H]); cbn in H; [by rewrite lookup_empty in H|]. exists k. by left.
  - intros k c H. apply elem_of_list_omap in H as (k' & _ & H). destruct (prev (s_cache s) !! k') as [m|] eqn:E; [|done].
    injection H as <- <-. exists k'. by right.
Qed.
End Jobs.
