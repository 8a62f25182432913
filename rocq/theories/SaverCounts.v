(** Counters, byte totals and throughput reports of the saver, in every
    environment. *)
From stdpp Require Import gmap.
From Coq Require Import NArith ZArith Lia.
From Verif Require Import GoBase GoBaseFacts GoTime Inetdiag Netlink SpecNetlink SpecCompare RecordFacts CompareFacts
  Cache SpecCache CacheFacts Saver SpecSaver SaverSteps SaverFiles SaverJobs SaverBlocks SaverRuns.

(** Actions of queue: opening, rotating, sending. *)
Definition file_work (a : action) : bool :=
  match a with
  | ANow _ | AOpen _ _ _ | AMkdir _ _ | ACreate _ _ | ACreateFail _ | AHeader _ _ | ANewFile | ASend _ _ _ => true
  | _ => false
  end.
Definition only (f : action -> bool) (s s' : saver) : Prop := exists e, s_log s' = s_log s ++ e /\ forallb f e = true.
Lemma only_refl f s : only f s s. Proof. exists []. by rewrite app_nil_r. Qed.
Lemma only_trans f s1 s2 s3 : only f s1 s2 -> only f s2 s3 -> only f s1 s3.
Proof. intros (e1 & L1 & F1) (e2 & L2 & F2). exists (e1 ++ e2). rewrite L2, L1, app_assoc, forallb_app, F1, F2. done. Qed.
Lemma only_emit f a s : f a = true -> only f s (emit a s).
Proof. intros H. exists [a]. cbn. by rewrite H. Qed.
Lemma only_log f s s' : s_log s' = s_log s -> only f s s'.
Proof. intros H. exists []. by rewrite app_nil_r. Qed.

Section Counts.
Variables (w : world) (cf : config).

Lemma now_only s : only file_work s (now w s).2.
Proof. unfold now. cbn. exists [ANow (clock w (p_clock (s_pos s)))]. done. Qed.
Lemma rotate_only c s : only file_work s (rotate w c s).1.
Proof.
  unfold rotate.
  lazymatch goal with |- context [let '(_, _) := ?x in _] => assert (H : only file_work s x.2) end.
  { destruct (0 <? cn_seq c)%nat; [|apply only_refl]. destruct (now w s) as [t s1] eqn:E. cbn.
    replace s1 with (now w s).2 by (by rewrite E). apply now_only. }
  lazymatch goal with |- context [let '(_, _) := ?x in _] => destruct x as [dp s1] end. cbn [snd] in H.
  eapply only_trans; [exact H|]. cbn zeta. destruct (mkdir_ok w _); cbn [negb].
  - destruct (create_ok w _); cbn [negb fst]; [eexists; cbn; rewrite <- !app_assoc; split; [reflexivity|reflexivity]|].
    eexists; cbn; rewrite <- !app_assoc; split; reflexivity.
  - cbn [fst]. eexists; cbn; split; reflexivity.
Qed.
Lemma queue_only msg s : usable msg -> only file_work s (queue w cf msg s).
Proof.
  intros Hu. unfold queue. destruct (usable_parse msg Hu) as (m & -> & ->).
  destruct (N.eqb _ 0); [apply only_refl|]. destruct (_ <? 1)%nat; [apply only_refl|]. cbn zeta.
  lazymatch goal with |- context [let '(_, _) := ?x in _] => assert (H1 : only file_work s x.2) end.
  { destruct (s_conns s !! _); [apply only_refl|]. destruct (now w s) as [t s1] eqn:E.
    replace s1 with (now w s).2 by (by rewrite E). cbn [snd].
    eapply only_trans; [apply now_only|]. eexists; cbn; split; reflexivity. }
  lazymatch goal with |- context [let '(_, _) := ?x in _] => destruct x as [c1 s1] end. cbn [snd] in H1.
  eapply only_trans; [exact H1|]. clear H1 s.
  destruct (now w s1) as [t s2] eqn:E. eapply only_trans; [apply (now_only s1)|]. rewrite E. cbn [snd]. clear E.
  lazymatch goal with |- context [let '(_, _) := ?x in _] => assert (H1 : only file_work s2 x.2) end.
  { destruct (cn_writer c1); [|apply only_refl]. destruct (_ <? _)%Z; [|apply only_refl].
    eexists; cbn; split; reflexivity. }
  lazymatch goal with |- context [let '(_, _) := ?x in _] => destruct x as [c2 s3] end. cbn [snd] in H1.
  eapply only_trans; [exact H1|]. clear H1.
  destruct (cn_writer c2); [apply only_emit; reflexivity|].
  pose proof (rotate_only c2 s3) as H. destruct (rotate w c2 s3) as [s4 [c3|]]; cbn [fst] in H; [|exact H].
  eapply only_trans; [exact H|]. destruct (cn_writer c3); [|apply only_log; reflexivity].
  eexists; cbn; split; reflexivity.
Qed.
Lemma queue_rest msg s : usable msg -> same_rest s (queue w cf msg s).
Proof.
  intros Hu. destruct (N.eq_dec (cookie_of msg) 0) as [H0|H0]; [rewrite queue_zero by assumption; apply same_rest_refl|].
  destruct (decide (1 <= nmarsh cf)) as [Hm|Hm].
  - apply (queue_effect w cf msg s Hu H0 Hm).
  - rewrite queue_none; [apply same_rest_refl|exact Hu|lia].
Qed.
Lemma queue_queued msg s e : usable msg -> s_log (queue w cf msg s) = s_log s ++ e ->
  queued e = [] \/ (queued e = [c_ar msg] /\ cookie_of msg <> 0%N).
Proof.
  intros Hu He. destruct (N.eq_dec (cookie_of msg) 0) as [H0|H0].
  { rewrite queue_zero in He by assumption. assert (e = []) as -> by (apply (app_inv_head (s_log s)); by rewrite <- He, app_nil_r). by left. }
  destruct (decide (1 <= nmarsh cf)) as [Hm|Hm].
  - destruct (queue_effect w cf msg s Hu H0 Hm) as (_ & e' & c' & L & _ & _ & Q & _). rewrite L in He.
    apply app_inv_head in He as ->. destruct Q as [Q|Q]; [left; exact Q|right; split; [exact Q|exact H0]].
  - rewrite queue_none in He; [|exact Hu|lia].
    assert (e = []) as -> by (apply (app_inv_head (s_log s)); by rewrite <- He, app_nil_r). by left.
Qed.

(** What accepting one record changes, in every environment. *)
Definition changed (P C : list archival) (r : archival) : bool :=
  match reference P C (rec_cookie r) with
  | None => false
  | Some _ => worth_saving P C r
  end.
Definition is_new (P C : list archival) (r : archival) : bool :=
  match reference P C (rec_cookie r) with None => true | Some _ => false end.
(** the stats moved to ClosingStats *)
Definition moved (P C : list archival) (r : archival) : option (N * N) :=
  match reference P C (rec_cookie r) with
  | Some o => if negb (has_diag_info r) && has_diag_info o then Some (get_stats o) else None
  | None => None
  end.
Lemma accept_general P C r s : cache_is P C (s_cache s) -> 72 <= length (header r) -> s_dead s = false -> s_dead (accept w cf r s) = false ->
  let s' := accept w cf r s in
  cache_is P (C ++ [r]) (s_cache s') /\
  s_stats s' = mkcnt (S (n_total (s_stats s))) ((if is_new P C r then 1 else 0) + n_new (s_stats s))
                     ((if changed P C r then 1 else 0) + n_diff (s_stats s)) (n_expired (s_stats s)) /\
  s_closing s' = match moved P C r with Some x => <[rec_cookie r := x]> (s_closing s) | None => s_closing s end /\
  s_ctotals s' = match moved P C r with Some x => add2 (s_ctotals s) x | None => s_ctotals s end /\
  s_loop s' = mkloop (l_reported (s_loop s)) (l_closed (s_loop s)) (l_last (s_loop s)) (add2 (l_live (s_loop s)) (get_stats r)) /\
  exists e, s_log s' = s_log s ++ (if worth_saving P C r then [ASnapshot] else []) ++ e /\ forallb file_work e = true /\
    (queued e = [] \/ queued e = saved P C r) .
Proof.
  intros Hc Hf Hd. destruct (accept_cases w cf P C r s Hc Hf) as (c' & Hc' & E). cbn zeta in E. rewrite E. clear E.
  cbn zeta. set (m := mkcell (p_uid (s_pos s)) r).
  assert (Q : forall s1, s_dead s1 = s_dead s -> worth_saving P C r = true ->
    same_rest s1 (queue w cf m s1) /\ exists e, s_log (queue w cf m s1) = s_log s1 ++ e /\ forallb file_work e = true /\
      (queued e = [] \/ queued e = saved P C r)).
  { intros s1 _ W. split; [apply queue_rest; exact Hf|]. destruct (queue_only m s1 Hf) as (e & L & F).
    exists e. split; [exact L|]. split; [exact F|]. destruct (queue_queued m s1 e Hf L) as [->|[-> H0]]; [by left|right].
    unfold saved. rewrite W. cbn [andb]. apply N.eqb_neq in H0. change (cookie_of m) with (rec_cookie r) in H0. rewrite H0. reflexivity. }
  clearbody m. unfold changed, is_new, moved. unfold worth_saving in *.
  destruct (reference P C (rec_cookie r)) as [o|] eqn:Er.
  - set (s1 := with_cache c' (inc_total (enter r s))) in *.
    assert (K : let s2 := closing_update r o s1 in
      s_conns s2 = s_conns s /\ s_log s2 = s_log s /\ s_dead s2 = s_dead s /\ s_cache s2 = c' /\
      s_stats s2 = mkcnt (S (n_total (s_stats s))) (n_new (s_stats s)) (n_diff (s_stats s)) (n_expired (s_stats s)) /\
      s_loop s2 = mkloop (l_reported (s_loop s)) (l_closed (s_loop s)) (l_last (s_loop s)) (add2 (l_live (s_loop s)) (get_stats r)) /\
      s_closing s2 = (if negb (has_diag_info r) && has_diag_info o then <[rec_cookie r := get_stats o]> (s_closing s) else s_closing s) /\
      s_ctotals s2 = (if negb (has_diag_info r) && has_diag_info o then add2 (s_ctotals s) (get_stats o) else s_ctotals s)).
    { unfold closing_update. destruct (_ && _); repeat split. }
    cbn zeta in K. set (s2 := closing_update r o s1) in *. clearbody s2. clear s1.
    destruct K as (K1 & K2 & K3 & K4 & K5 & K6 & K7 & K8).
    assert (Quiet : s_dead s2 = false -> 
      cache_is P (C ++ [r]) (s_cache s2) /\
      s_stats s2 = mkcnt (S (n_total (s_stats s))) (0 + n_new (s_stats s)) (0 + n_diff (s_stats s)) (n_expired (s_stats s)) /\
      s_closing s2 = match (if negb (has_diag_info r) && has_diag_info o then Some (get_stats o) else None) with Some x => <[rec_cookie r := x]> (s_closing s) | None => s_closing s end /\
      s_ctotals s2 = match (if negb (has_diag_info r) && has_diag_info o then Some (get_stats o) else None) with Some x => add2 (s_ctotals s) x | None => s_ctotals s end /\
      s_loop s2 = mkloop (l_reported (s_loop s)) (l_closed (s_loop s)) (l_last (s_loop s)) (add2 (l_live (s_loop s)) (get_stats r)) /\
      exists e, s_log s2 = s_log s ++ [] ++ e /\ forallb file_work e = true /\ (queued e = [] \/ queued e = saved P C r)).
    { intros _. rewrite K4. split; [exact Hc'|]. split; [exact K5|]. split; [rewrite K7; destruct (_ && _); reflexivity|].
      split; [rewrite K8; destruct (_ && _); reflexivity|]. split; [exact K6|]. exists [].
      rewrite app_nil_r. split; [exact K2|]. split; [reflexivity|by left]. }
    assert (Loud : (match compare r (Some o) with Ret NoMajorChange => false | Ret _ => true | _ => false end) = true ->
      let s' := queue w cf m (emit ASnapshot (inc_diff s2)) in
      cache_is P (C ++ [r]) (s_cache s') /\
      s_stats s' = mkcnt (S (n_total (s_stats s))) (0 + n_new (s_stats s)) (1 + n_diff (s_stats s)) (n_expired (s_stats s)) /\
      s_closing s' = match (if negb (has_diag_info r) && has_diag_info o then Some (get_stats o) else None) with Some x => <[rec_cookie r := x]> (s_closing s) | None => s_closing s end /\
      s_ctotals s' = match (if negb (has_diag_info r) && has_diag_info o then Some (get_stats o) else None) with Some x => add2 (s_ctotals s) x | None => s_ctotals s end /\
      s_loop s' = mkloop (l_reported (s_loop s)) (l_closed (s_loop s)) (l_last (s_loop s)) (add2 (l_live (s_loop s)) (get_stats r)) /\
      exists e, s_log s' = s_log s ++ [ASnapshot] ++ e /\ forallb file_work e = true /\ (queued e = [] \/ queued e = saved P C r)).
    { intros W. cbn zeta. destruct (Q (emit ASnapshot (inc_diff s2)) K3 W) as [(R1 & R2 & R3 & R4 & R5 & _) (e & L & F & Qe)].
      cbn in R1, R2, R3, R4, R5, L. rewrite R1, R2, R3, R4, R5, K4, K5, K7, K8.
      split; [exact Hc'|]. split; [reflexivity|]. split; [destruct (_ && _); reflexivity|].
      split; [destruct (_ && _); reflexivity|]. split; [exact K6|]. exists e. rewrite L, K2, <- app_assoc.
      split; [reflexivity|]. split; [exact F|exact Qe]. }
    destruct (compare r (Some o)) as [[]|e| |]; intros D; cbn [andb];
      lazymatch type of D with
      | s_dead (queue _ _ _ _) = false => exact (Loud eq_refl)
      | s_dead (crash _) = false => discriminate D
      | _ => exact (Quiet D)
      end.
  - intros _. set (s1 := emit _ _). assert (D1 : s_dead s1 = s_dead s) by reflexivity.
    destruct (Q s1 D1 eq_refl) as [(R1 & R2 & R3 & R4 & R5 & _) (e & L & F & Qe)].
    rewrite R1, R2, R3, R4, R5.
    split; [exact Hc'|]. repeat (split; [reflexivity|]). exists e. rewrite L. subst s1. cbn [s_log emit].
    rewrite <- app_assoc. split; [reflexivity|]. split; [exact F|exact Qe].
Qed.
End Counts.
