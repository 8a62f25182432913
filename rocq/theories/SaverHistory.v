(** Histories of blocks: what is saved (C23, C24), counters (C27), messages that
    leave no trace (C31), survival (C48). *)
From stdpp Require Import gmap.
From Coq Require Import NArith ZArith Lia.
From Verif Require Import GoBase GoBaseFacts GoTime Inetdiag Netlink SpecNetlink SpecCompare NetlinkFacts RecordFacts CompareFacts
  Cache SpecCache CacheFacts Saver SpecSaver SaverSteps SaverFiles SaverJobs SaverBlocks SaverRuns SaverCounts.

Lemma Forall_one {A} (P : A -> Prop) x : Forall P [x] -> P x.
Proof. intros H. by inversion H. Qed.

(** ** C31 *)
Lemma no_trace_make ex msg : no_trace ex (Some msg) ->
  make_archival_record msg ex = Ret None \/ exists e, make_archival_record msg ex = Fail e.
Proof.
  intros H. destruct (make_archival_record msg ex) as [[r|]|e| |] eqn:E; [|by left|right; by eexists| |by apply make_no_diverge in E].
  - exfalso. apply make_ret_some in E as (Ht & Hl & Hn & l & mx & Hw & _). unfold data_of, raw_of, area_of, data_of in *.
    destruct H as [H|[H|[(e & -> & H)|H]]]; [contradiction|lia|exact (Hn H)|].
    apply (parse_route_attr_einval_iff _ []) in H. apply (parse_route_attr_ret_iff _ []) in Hw as (at' & Ha & _). congruence.
  - exfalso. apply make_panic_iff in E as (Ht & Hl & Hn & Hw). unfold data_of, raw_of, area_of, data_of in *.
    destruct H as [H|[H|[(e & -> & H)|H]]]; [contradiction|lia|exact (Hn H)|].
    apply (parse_route_attr_einval_iff _ []) in H. apply (parse_route_attr_panic_iff _ []) in Hw. congruence.
Qed.
Section NoTrace.
Variables (w : world) (cf : config) (view : cell -> archival).
Lemma handle_no_trace t m s : no_trace (excl cf) m -> handle_msg w cf view t m s = s.
Proof.
  intros H. unfold handle_msg. destruct (s_dead s); [done|]. destruct m as [msg|]; [|done].
  destruct (no_trace_make _ _ H) as [->|[e ->]]; done.
Qed.
Lemma handle_padded t l l' : padded (excl cf) l l' -> forall s, handle_type w cf view t l' s = handle_type w cf view t l s.
Proof.
  unfold handle_type. induction 1 as [|m l l' _ IH|m l l' Hm _ IH]; intros s; cbn; [done|apply IH|].
  rewrite handle_no_trace by done. apply IH.
Qed.
Lemma do_padded b b' s : padded_block (excl cf) b b' -> do_block w cf view b' s = do_block w cf view b s.
Proof.
  intros (T4 & T6 & P4 & P6). unfold do_block. rewrite <- T4, <- T6.
  rewrite (handle_padded _ _ _ P4), (handle_padded _ _ _ P6). done.
Qed.
End NoTrace.
Lemma run_padded w cf bs bs' : Forall2 (padded_block (excl cf)) bs bs' ->
  message_saver_loop w cf bs' = message_saver_loop w cf bs.
Proof.
  intros H. unfold message_saver_loop. f_equal. generalize new_saver. unfold loop.
  induction H as [|b b' bs bs' Hb _ IH]; intros s; cbn; [done|]. rewrite (do_padded _ _ _ _ _ _ Hb). apply IH.
Qed.

(** Excluding is the same as never having received the message. *)
Lemma make_not_excluded msg ex : make_archival_record msg ex <> Ret None ->
  make_archival_record msg ex = make_archival_record msg None.
Proof.
  intros H. rewrite make_unfold in H. rewrite !make_unfold.
  destruct (negb _); [done|]. destruct (_ <? 72); [done|].
  destruct (match ex with Some e => _ | None => false end); [by destruct H|done].
Qed.
Definition kept (ex : option exclude_config) (m : option nlmsg) : bool :=
  match m with
  | Some msg => match make_archival_record msg ex with Ret None => false | _ => true end
  | None => true
  end.
Definition without (ex : option exclude_config) (b : block) : block :=
  mkblock (V4Time b) (V6Time b) (List.filter (kept ex) (V4Messages b)) (List.filter (kept ex) (V6Messages b)).
Section Absent.
Variables (w : world) (cf : config).
Let cf0 := mkconfig (nmarsh cf) None.
Lemma handle_msg_absent view t m s : kept (excl cf) m = true -> handle_msg w cf view t m s = handle_msg w cf0 view t m s.
Proof.
  unfold kept, handle_msg. destruct (s_dead s); [done|]. destruct m as [msg|]; [|done]. intros H.
  change (excl cf0) with (@None exclude_config). rewrite <- (make_not_excluded msg (excl cf)) by (intros E; by rewrite E in H).
  reflexivity.
Qed.
Lemma handle_type_absent view t l : forall s,
  handle_type w cf view t l s = handle_type w cf0 view t (List.filter (kept (excl cf)) l) s.
Proof.
  unfold handle_type. induction l as [|m l IH]; intros s; cbn; [done|].
  destruct (kept (excl cf) m) eqn:E; cbn.
  - rewrite handle_msg_absent by done. apply IH.
  - rewrite <- IH. f_equal. unfold kept in E. unfold handle_msg. destruct (s_dead s); [done|].
    destruct m as [msg|]; [|done]. by destruct (make_archival_record msg (excl cf)) as [[]| | |].
Qed.
Lemma loop_absent bs s : loop w cf bs s = loop w cf0 (map (without (excl cf)) bs) s.
Proof.
  revert s. unfold loop. induction bs as [|b bs IH]; intros s; cbn; [done|]. rewrite <- IH. f_equal.
  unfold do_block. cbn [without V4Time V6Time V4Messages V6Messages]. rewrite !handle_type_absent. done.
Qed.
Lemma run_absent bs : message_saver_loop w cf bs = message_saver_loop w cf0 (map (without (excl cf)) bs).
Proof. unfold message_saver_loop. by rewrite <- loop_absent. Qed.
End Absent.

(** ** C27: counters *)
Lemma count_app f l1 l2 : count f (l1 ++ l2) = count f l1 + count f l2.
Proof. unfold count. by rewrite List.filter_app, app_length. Qed.
Lemma file_work_count e : forallb file_work e = true -> count is_snapshot e = 0 /\ count is_close e = 0.
Proof.
  unfold count. induction e as [|a e IH]; [done|]. cbn [forallb]. intros H. apply andb_prop in H as [H1 H2].
  destruct (IH H2) as [E1 E2]. by destruct a.
Qed.
Lemma count_if (b : bool) : count is_snapshot (if b then [ASnapshot] else []) = (if b then 1 else 0)
  /\ count is_close (if b then [ASnapshot] else []) = 0.
Proof. by destruct b. Qed.
Lemma new_or_changed P C r :
  (if is_new P C r then 1 else 0) + (if changed P C r then 1 else 0) = (if worth_saving P C r then 1 else 0).
Proof.
  unfold is_new, changed, worth_saving. destruct (reference P C (rec_cookie r)); [|done].
  by destruct (compare r (Some a)) as [[]| | |].
Qed.
Definition counted (acc : nat) (s : saver) : Prop :=
  n_total (s_stats s) = acc /\ n_new (s_stats s) + n_diff (s_stats s) = count is_snapshot (s_log s) /\
  n_new (s_stats s) + n_diff (s_stats s) <= n_total (s_stats s) /\
  n_expired (s_stats s) = count is_close (s_log s).
Section Counters.
Variables (w : world) (cf : config).
Lemma accept_counted P C r s acc : cache_is P C (s_cache s) -> 72 <= length (header r) -> s_dead s = false ->
  s_dead (accept w cf r s) = false -> counted acc s ->
  cache_is P (C ++ [r]) (s_cache (accept w cf r s)) /\ counted (S acc) (accept w cf r s).
Proof.
  intros Hc Hf Hd Ha (H1 & H2 & H3 & H4).
  destruct (accept_general w cf P C r s Hc Hf Hd Ha) as (A1 & A2 & _ & _ & _ & e & L & F & _).
  split; [exact A1|]. unfold counted. rewrite A2, L. cbn [n_total n_new n_diff n_expired].
  destruct (file_work_count e F) as [E1 E2]. rewrite !count_app, E1, E2.
  pose proof (new_or_changed P C r) as Hx. pose proof (count_if (worth_saving P C r)) as Hs.
  destruct Hs as [Hs1 Hs2]. rewrite Hs1, Hs2. destruct (worth_saving P C r); lia.
Qed.
Lemma take_counted P b s acc : cache_is P [] (s_cache s) -> counted acc s -> s_dead (take_block w cf b s) = false ->
  cache_is P (accepted cf b) (s_cache (take_block w cf b s)) /\ counted (acc + length (accepted cf b)) (take_block w cf b s).
Proof.
  intros Hc Hn Ha.
  refine (proj2 (take_block_ind w cf (fun C s' => cache_is P C (s_cache s') /\ counted (acc + length C) s') _ b s _ Ha)).
  - intros C r s1 [I1 I2] D Hf D'. rewrite app_length. cbn [length]. replace (acc + (length C + 1)) with (S (acc + length C)) by lia.
    by apply accept_counted.
  - cbn. rewrite Nat.add_0_r. done.
Qed.
Lemma close_one_counted k m s acc : counted acc s -> s_dead s = false -> s_dead (close_one w cf c_ar (k, m) s) = false ->
  counted acc (close_one w cf c_ar (k, m) s) /\ s_cache (close_one w cf c_ar (k, m) s) = s_cache s /\ 1 <= nmarsh cf.
Proof.
  intros H Hd. unfold close_one. rewrite Hd.
  lazymatch goal with |- context [let '(_, _) := ?x in _] =>
    assert (Hx : s_dead x.2 = false /\ s_cache x.2 = s_cache s /\ s_log x.2 = s_log s /\ s_stats x.2 = s_stats s) end.
  { destruct (negb _); [|done]. by destruct (s_closing s !! k). }
  lazymatch goal with |- context [let '(_, _) := ?x in _] => destruct x as [st s1] end.
  cbn [snd] in Hx. destruct Hx as (X1 & X2 & X3 & X4). cbn zeta.
  lazymatch goal with |- context [end_conn w cf k ?s2] => set (s2' := s2) end.
  destruct (decide (1 <= nmarsh cf)) as [Hm|Hm].
  - assert (L : exists e t, s_log (end_conn w cf k s2') = s_log s2' ++ ANow t :: AClose t k :: e /\ count is_close e = 0 /\ count is_snapshot e = 0).
    { unfold end_conn. destruct (now w s2') as [t s3] eqn:En. destruct (now_rest w _ _ _ En) as (R1 & C1 & L1). cbn zeta.
      destruct (Nat.eqb_spec (nmarsh cf) 0); [lia|].
      destruct (s_conns _ !! k) as [c|]; [destruct (cn_writer c)|]; eexists _, t; cbn; rewrite L1, <- !app_assoc; cbn; done. }
    destruct (end_conn_effect w cf k s2' Hm) as [(R1 & R2 & R3 & R4 & R5 & R6 & _) _].
    set (s3 := end_conn w cf k s2') in *. clearbody s3. subst s2'. cbn in R1, R4, R6, L. rewrite X1 in R6. rewrite R6.
    intros _. split; [|split; [change (s_cache s3 = s_cache s); congruence|exact Hm]]. destruct L as (e & t & L & C1 & C2). destruct H as (H1 & H2 & H3 & H4).
    unfold counted. change (s_log (inc_expired s3)) with (s_log s3).
    change (s_stats (inc_expired s3)) with (mkcnt (n_total (s_stats s3)) (n_new (s_stats s3)) (n_diff (s_stats s3)) (S (n_expired (s_stats s3)))).
    rewrite R4, X4, L, X3. change (ANow t :: AClose t k :: e) with ([ANow t; AClose t k] ++ e). rewrite !count_app, C1, C2.
    change (count is_close [ANow t; AClose t k]) with 1. change (count is_snapshot [ANow t; AClose t k]) with 0.
    cbn [n_total n_new n_diff n_expired]. lia.
  - unfold end_conn. destruct (now w s2') as [t s3]. cbn zeta.
    destruct (Nat.eqb_spec (nmarsh cf) 0); [|lia]. cbn. done.
Qed.
Lemma close_all_counted rs : forall s acc, counted acc s -> s_dead s = false -> s_dead (close_all w cf rs s) = false ->
  counted acc (close_all w cf rs s) /\ s_cache (close_all w cf rs s) = s_cache s.
Proof.
  induction rs as [|[k m] rs IH]; intros s acc H Hd Ha; [done|].
  change (close_all w cf ((k, m) :: rs) s) with (close_all w cf rs (close_one w cf c_ar (k, m) s)) in *.
  destruct (s_dead (close_one w cf c_ar (k, m) s)) eqn:D. { rewrite close_all_dead in Ha by exact D. congruence. }
  destruct (close_one_counted k m s acc H Hd D) as (H1 & H2 & _). rewrite <- H2. by apply IH.
Qed.
Lemma report_counted t s acc : counted acc s -> counted acc (report t s).
Proof.
  intros (H1 & H2 & H3 & H4). unfold counted, report. destruct (s_dead s); [done|]. destruct (_ <? _)%Z; [|done].
  unfold report_one. repeat (destruct (_ || _)); cbn [s_log s_stats with_loop emit]; rewrite !count_app;
    lazymatch goal with |- context [count is_snapshot [?a]] => change (count is_snapshot [a]) with 0; change (count is_close [a]) with 0 end;
    lazymatch goal with |- context [count is_snapshot [?a]] => change (count is_snapshot [a]) with 0; change (count is_close [a]) with 0 end;
    lia.
Qed.
Hypothesis Hfair : fair_order w.
Lemma do_block_counted P b s acc : cache_is P [] (s_cache s) -> counted acc s -> s_dead (do_block w cf c_ar b s) = false ->
  cache_is (accepted cf b) [] (s_cache (do_block w cf c_ar b s)) /\ counted (acc + length (accepted cf b)) (do_block w cf c_ar b s).
Proof using Hfair.
  intros Hc Hn. rewrite do_block_eq.
  destruct (s_dead (take_block w cf b s)) eqn:Hd.
  { rewrite (end_round_dead _ _ Hd). cbn [fst snd]. rewrite close_all_dead by exact Hd. rewrite report_dead, Hd. discriminate. }
  destruct (take_counted P b s acc Hc Hn Hd) as [Hc1 Hn1]. set (s1 := take_block w cf b s) in *. clearbody s1.
  destruct (end_round_spec w s1 Hfair Hd) as (rs & -> & _). cbn [fst snd]. cbn zeta.
  destruct (cache_is_end _ _ _ Hc1) as [_ Hc2]. set (s2 := with_pos _ _). rewrite report_dead. intros Ha.
  assert (Hn2 : counted (acc + length (accepted cf b)) s2).
  { destruct Hn1 as (N1 & N2 & N3 & N4). unfold counted. change (s_stats s2) with (s_stats s1).
    change (s_log s2) with (s_log s1 ++ [ACacheSize (size (cur (s_cache s1)))]). rewrite !count_app.
    change (count is_snapshot [ACacheSize (size (cur (s_cache s1)))]) with 0. change (count is_close [ACacheSize (size (cur (s_cache s1)))]) with 0. lia. }
  destruct (close_all_counted rs s2 _ Hn2 Hd Ha) as [Hn3 Hc3].
  destruct (report_effect (V4Time b) (close_all w cf rs s2)) as (_ & B2 & _).
  split; [rewrite B2, Hc3; exact Hc2|]. by apply report_counted.
Qed.
Lemma loop_counted bs : s_dead (loop w cf bs new_saver) = false ->
  cache_is (last_accepted cf bs) [] (s_cache (loop w cf bs new_saver)) /\
  counted (length (concat (map (accepted cf) bs))) (loop w cf bs new_saver).
Proof using Hfair.
  induction bs as [|b bs IH] using rev_ind; intros Hd; [split; [apply cache_is_new|done]|].
  pose proof (loop_alive _ _ _ _ _ Hd) as Hd'. destruct (IH Hd') as [Hc Hn]. rewrite loop_snoc, last_accepted_snoc in *.
  rewrite map_app, concat_app, app_length. cbn [map concat]. rewrite app_nil_r. by eapply do_block_counted.
Qed.
Lemma log_same bs : s_dead (loop w cf bs new_saver) = false ->
  let '(total, _, same, diff, new) := log_cache_stats 0 0 (loop w cf bs new_saver) in
  (0 <= same)%Z /\ (total = same + diff + new)%Z.
Proof using Hfair.
  intros Hd. destruct (loop_counted bs Hd) as [_ (H1 & H2 & H3 & H4)]. unfold log_cache_stats. lia.
Qed.
End Counters.

(** ** C24, in every environment: nothing else is queued *)
Section Sublist.
Variables (w : world) (cf : config).
Hypothesis Hfair : fair_order w.
Lemma take_sublist P b s : cache_is P [] (s_cache s) -> s_dead (take_block w cf b s) = false ->
  exists e, s_log (take_block w cf b s) = s_log s ++ e /\ queued e `sublist_of` saves P [] (accepted cf b).
Proof using.
  intros Hc Ha.
  refine (proj2 (proj2 (take_block_ind w cf (fun C s' => cache_is P C (s_cache s') /\
    exists e, s_log s' = s_log s ++ e /\ queued e `sublist_of` saves P [] C) _ b s _ Ha))).
  - intros C r s1 [I1 (e & L & S)] D Hf D'.
    destruct (accept_general w cf P C r s1 I1 Hf D D') as (A1 & _ & _ & _ & _ & e' & L' & F & Q).
    split; [exact A1|]. eexists. rewrite L', L, <- app_assoc. split; [reflexivity|].
    rewrite !queued_app, saves_app. apply sublist_app; [exact S|].
    replace (queued (if worth_saving P C r then [ASnapshot] else [])) with (@nil archival) by (destruct (worth_saving P C r); reflexivity).
    cbn [app saves]. rewrite app_nil_r. fold (saved P C r). destruct Q as [-> | ->]; [apply sublist_nil_l|reflexivity].
  - split; [exact Hc|]. exists []. rewrite app_nil_r. split; [done|apply sublist_nil_l].
Qed.
Lemma close_all_queued rs : forall s, s_dead s = false -> s_dead (close_all w cf rs s) = false ->
  exists e, s_log (close_all w cf rs s) = s_log s ++ e /\ queued e = [].
Proof using.
  induction rs as [|[k m] rs IH]; intros s Hd Ha; [exists []; by rewrite app_nil_r|].
  change (close_all w cf ((k, m) :: rs) s) with (close_all w cf rs (close_one w cf c_ar (k, m) s)) in *.
  destruct (s_dead (close_one w cf c_ar (k, m) s)) eqn:D. { rewrite close_all_dead in Ha by exact D. congruence. }
  assert (Hm : 1 <= nmarsh cf).
  { revert D. unfold close_one. rewrite Hd. destruct (if negb _ then _ else _) as [st s1]. cbn zeta. unfold end_conn.
    destruct (Nat.eqb_spec (nmarsh cf) 0); [|lia]. destruct (now w _) as [t s3]. cbn. done. }
  destruct (close_one_effect w cf Hm k m s Hd) as (_ & _ & (e & L & Q & _) & _).
  destruct (IH _ D Ha) as (e' & L' & Q'). exists (e ++ e'). rewrite L', L, app_assoc. split; [done|]. rewrite queued_app, Q, Q'. done.
Qed.
Lemma block_sublist bs b : s_dead (loop w cf (bs ++ [b]) new_saver) = false ->
  exists e, s_log (loop w cf (bs ++ [b]) new_saver) = s_log (loop w cf bs new_saver) ++ e /\
    queued e `sublist_of` saves (last_accepted cf bs) [] (accepted cf b).
Proof using Hfair.
  intros Hd. destruct (loop_counted w cf Hfair bs (loop_alive _ _ _ _ _ Hd)) as [Hc _]. rewrite loop_snoc in *.
  set (s := loop w cf bs new_saver) in *. clearbody s. revert Hd. rewrite do_block_eq.
  destruct (s_dead (take_block w cf b s)) eqn:Hd.
  { rewrite (end_round_dead _ _ Hd). cbn [fst snd]. rewrite close_all_dead by exact Hd. rewrite report_dead, Hd. discriminate. }
  destruct (take_sublist _ b s Hc Hd) as (e1 & L1 & S1). set (s1 := take_block w cf b s) in *. clearbody s1.
  destruct (end_round_spec w s1 Hfair Hd) as (rs & -> & _). cbn [fst snd]. cbn zeta. set (s2 := with_pos _ _).
  rewrite report_dead. intros Ha. destruct (close_all_queued rs s2 Hd Ha) as (e3 & L3 & Q3).
  destruct (report_effect (V4Time b) (close_all w cf rs s2)) as (_ & _ & _ & _ & e4 & L4 & N4).
  eexists. rewrite L4, L3. change (s_log s2) with (s_log s1 ++ [ACacheSize (size (cur (s_cache s1)))]).
  rewrite L1, <- !app_assoc. split; [reflexivity|]. rewrite !queued_app, Q3. destruct (neutral_events 0%N e4 N4) as [_ ->].
  cbn. by rewrite app_nil_r.
Qed.
End Sublist.

(** ** C23 *)
Lemma up_to_date_skip k Q l r : (forall x, x ∈ l -> rec_cookie x <> k) -> up_to_date k Q r -> up_to_date k (Q ++ l) r.
Proof.
  intros H (q & E & V). exists q. split; [|exact V]. rewrite latest_app.
  assert (latest k l = None) as ->; [|exact E]. apply latest_None. intros Hin.
  apply elem_of_list_fmap in Hin as (x & -> & Hx). by eapply H.
Qed.
Lemma saves_up_to_date P Q C : Forall comparable P -> Forall comparable C ->
  (forall k r, k <> 0%N -> latest k P = Some r -> up_to_date k Q r) ->
  forall k r, k <> 0%N -> (latest k C = Some r \/ latest k C = None /\ latest k P = Some r) -> up_to_date k (Q ++ saves P [] C) r.
Proof.
  intros HP HC HQ. induction C as [|x C IH] using rev_ind; intros k r Hk H.
  - rewrite app_nil_r. destruct H as [H|[_ H]]; [done|]. by apply HQ.
  - apply Forall_app in HC as [HC Hx]. apply Forall_one in Hx. specialize (IH HC).
    rewrite saves_app, app_assoc. cbn [saves app]. rewrite app_nil_r. rewrite latest_snoc in H.
    destruct (decide (rec_cookie x = k)) as [E|E].
    + destruct H as [H|[H _]]; [|discriminate]. injection H as <-. 
      apply N.eqb_neq in Hk as Hk'. rewrite E, Hk'. cbn [negb]. rewrite andb_true_r.
      destruct (worth_saving P C x) eqn:W.
      * exists x. split; [|by left]. rewrite latest_app, latest_one. by rewrite decide_True.
      * rewrite app_nil_r. unfold worth_saving, reference in W. rewrite E in W.
        destruct (latest k C) eqn:EC; [discriminate|]. destruct (latest k P) as [o|] eqn:EP; [|discriminate].
        assert (Ho : comparable o).
        { rewrite Forall_forall in HP. apply HP. exact (proj2 (latest_Some _ _ _ EP)). }
        destruct (compare_sound x o Ho Hx) as (c & Ec & _). rewrite Ec in W.
        destruct c; try discriminate W. apply compare_no_change_iff in Ec; [|exact Ho|exact Hx].
        destruct (IH k o Hk) as (q & Eq & V); [right; split; [exact EC|exact EP]|]. exists q. split; [exact Eq|].
        right. destruct V as [->|V]; [exact Ec|]. eapply nsc_trans; [exact V|exact Ec].
    + apply up_to_date_skip; [|by apply IH]. intros y Hy. destruct (_ && _); [|by inversion Hy].
      apply elem_of_list_singleton in Hy as ->. exact E.
Qed.
Section Missed.
Variables (w : world) (cf : config).
Hypothesis Hio : io_ok w.
Hypothesis Hm : 1 <= nmarsh cf.
Hypothesis Hfair : fair_order w.
Lemma nothing_missed bs k r : s_dead (loop w cf bs new_saver) = false -> all_comparable cf bs -> k <> 0%N ->
  latest k (last_accepted cf bs) = Some r -> up_to_date k (queued (s_log (loop w cf bs new_saver))) r.
Proof using Hio Hm Hfair.
  revert k r. induction bs as [|b bs IH] using rev_ind; intros k r Hd HC Hk; [done|].
  apply Forall_app in HC as [HC Hb]. apply Forall_one in Hb. rewrite last_accepted_snoc.
  destruct (block_step w cf Hio Hm Hfair bs b Hd) as (e & L & Q & _). rewrite L, queued_app, Q. intros H.
  apply saves_up_to_date; [|exact Hb| |exact Hk|by left].
  - unfold last_accepted. destruct (last bs) as [b'|] eqn:E; [|constructor]. apply last_Some in E as [bs' ->].
    apply Forall_app in HC as [_ HC]. by apply Forall_one in HC.
  - intros k' r' Hk' H'. apply IH; [by eapply loop_alive|exact HC|exact Hk'|exact H'].
Qed.
End Missed.

(** ** C48: survival *)
Section Alive.
Variables (w : world) (cf : config).
Hypothesis Hm : 1 <= nmarsh cf.
Lemma queue_dead m s : usable m -> s_dead (queue w cf m s) = s_dead s.
Proof using. intros Hu. by destruct (queue_rest w cf m s Hu) as (_ & _ & _ & _ & _ & R & _). Qed.
Lemma accept_alive P C r s : cache_is P C (s_cache s) -> s_dead s = false -> comparable r ->
  (forall o, reference P C (rec_cookie r) = Some o -> comparable o) -> s_dead (accept w cf r s) = false.
Proof using.
  intros Hc Hd Hr Ho. destruct (accept_cases w cf P C r s Hc (proj1 Hr)) as (c' & _ & E). cbn zeta in E. rewrite E. clear E.
  destruct (reference P C (rec_cookie r)) as [o|]; [|rewrite queue_dead; [exact Hd|exact (proj1 Hr)]].
  specialize (Ho o eq_refl). pose proof (compare_sound r o Ho Hr) as S. destruct S as (c & S & _).
  rewrite S.
  assert (D : s_dead (closing_update r o (with_cache c' (inc_total (enter r s)))) = false).
  { destruct (closing_update_same r o (with_cache c' (inc_total (enter r s)))) as (_ & _ & K & _). rewrite K. exact Hd. }
  destruct c; try exact D; (rewrite queue_dead; [exact D|exact (proj1 Hr)]).
Qed.
Lemma handle_type_alive P t msgs : Forall comparable P ->
  Forall (fun m => forall msg, m = Some msg -> make_archival_record msg (excl cf) <> Panic) msgs ->
  Forall comparable (accepted_of (excl cf) t msgs) ->
  forall C s, cache_is P C (s_cache s) -> s_dead s = false -> s_dead (handle_type w cf c_ar t msgs s) = false /\
    cache_is P (C ++ accepted_of (excl cf) t msgs) (s_cache (handle_type w cf c_ar t msgs s)).
Proof using.
  intros HP. induction msgs as [|m msgs IH]; intros Hpa Hco C s Hc Hd; [rewrite app_nil_r; done|].
  rewrite handle_type_cons. rewrite accepted_of_cons in *. apply Forall_cons in Hpa as [Hp1 Hp2]. apply Forall_app in Hco as [Hc1 Hc2].
  destruct (handle_msg_cases w cf t m s Hd) as [[E1 E2]|[(x & Ex & Em & E1 & E2)|(r & E1 & Hf & E2)]]; rewrite E1, E2 in *.
  - by apply IH.
  - exfalso. by eapply Hp1.
  - apply Forall_one in Hc1. rewrite app_assoc.
    assert (D : s_dead (accept w cf r s) = false).
    { apply (accept_alive P C); [exact Hc|exact Hd|exact Hc1|]. intros o Ho. unfold reference in Ho. destruct (latest _ C); [discriminate|].
      rewrite Forall_forall in HP. apply HP. exact (proj2 (latest_Some _ _ _ Ho)). }
    apply IH; [exact Hp2|exact Hc2| |exact D]. destruct (accept_general w cf P C r s Hc Hf Hd D) as (A & _). exact A.
Qed.
Lemma take_block_alive P b s : Forall comparable P -> parses cf b -> Forall comparable (accepted cf b) ->
  cache_is P [] (s_cache s) -> s_dead s = false -> s_dead (take_block w cf b s) = false.
Proof using.
  intros HP Hb Hc HI Hd. unfold parses in Hb. apply Forall_app in Hb as [Hb4 Hb6]. unfold accepted in Hc. apply Forall_app in Hc as [H4 H6].
  destruct (handle_type_alive P (V4Time b) _ HP Hb4 H4 [] s HI Hd) as [D4 C4].
  by destruct (handle_type_alive P (V6Time b) _ HP Hb6 H6 _ _ C4 D4) as [D6 _].
Qed.
Lemma close_all_alive rs : forall s, s_dead s = false -> s_dead (close_all w cf rs s) = false.
Proof using Hm.
  induction rs as [|[k m] rs IH]; intros s Hd; [done|]. apply (IH (close_one w cf c_ar (k, m) s)). by apply close_one_dead.
Qed.
Hypothesis Hfair : fair_order w.
Lemma survives bs : Forall (parses cf) bs -> all_comparable cf bs -> s_dead (loop w cf bs new_saver) = false.
Proof using Hm Hfair.
  induction bs as [|b bs IH] using rev_ind; intros HP HC; [done|].
  apply Forall_app in HC as [HC Hb]. apply Forall_one in Hb. apply Forall_app in HP as [HP Hp]. apply Forall_one in Hp.
  specialize (IH HP HC). destruct (loop_counted w cf Hfair bs IH) as [Hc _]. rewrite loop_snoc, do_block_eq, report_dead.
  assert (D : s_dead (take_block w cf b (loop w cf bs new_saver)) = false).
  { eapply take_block_alive; [|exact Hp|exact Hb|exact Hc|exact IH].
    unfold last_accepted. destruct (last bs) as [b'|] eqn:E; [|constructor]. apply last_Some in E as [bs' ->].
    apply Forall_app in HC as [_ HC]. by apply Forall_one in HC. }
  apply close_all_alive. destruct (end_round_spec w _ Hfair D) as (rs & -> & _). exact D.
Qed.
Lemma survives_shutdown bs : Forall (parses cf) bs -> all_comparable cf bs -> s_dead (message_saver_loop w cf bs) = false.
Proof using Hm Hfair. intros HP HC. by apply close_effect, survives. Qed.
End Alive.

(** ** C24 without reference to Compare *)
Section Saved.
Variables (w : world) (cf : config).
Hypothesis Hio : io_ok w.
Hypothesis Hm : 1 <= nmarsh cf.
Hypothesis Hfair : fair_order w.
Lemma latest_In k l r : latest k l = Some r -> r ∈ l.
Proof. unfold latest. intros H. apply last_Some in H as [l' H]. eapply elem_of_list_filter. rewrite H. apply elem_of_app. right. by apply elem_of_list_singleton. Qed.
Lemma to_save_saves P : Forall comparable P -> forall l C, Forall comparable l -> to_save P C l (saves P C l).
Proof using.
  clear. intros HP. induction l as [|r l IH]; intros C Hl; [constructor|]. apply Forall_cons in Hl as [Hr Hl]. cbn [saves].
  specialize (IH (C ++ [r]) Hl). destruct (N.eqb_spec (rec_cookie r) 0) as [E|E].
  { rewrite andb_false_r. by apply ts_zero. }
  rewrite andb_true_r. unfold worth_saving. destruct (reference P C (rec_cookie r)) as [o|] eqn:R.
  2: { by apply ts_new. }
  assert (Ho : comparable o).
  { unfold reference in R. destruct (latest _ C); [discriminate R|]. apply latest_In in R. rewrite Forall_forall in HP. exact (HP o R). }
  pose proof (compare_no_change_iff r o Ho Hr) as V. destruct (compare_sound r o Ho Hr) as (c & Hc & _). rewrite Hc in V |- *.
  assert (D : c = NoMajorChange \/ c <> NoMajorChange) by (destruct c; [by left|right; discriminate..]).
  destruct D as [->|D].
  - eapply ts_same; [exact E|exact R|by apply V|exact IH].
  - assert (N : ~ no_significant_change o r) by (intros X; apply V in X; injection X as X; contradiction).
    destruct c; try contradiction; (eapply ts_changed; [exact E|exact R|exact N|exact IH]).
Qed.
Lemma block_saves bs b : Forall (parses cf) (bs ++ [b]) -> all_comparable cf (bs ++ [b]) ->
  exists e, s_log (loop w cf (bs ++ [b]) new_saver) = s_log (loop w cf bs new_saver) ++ e /\
    to_save (last_accepted cf bs) [] (accepted cf b) (queued e).
Proof using Hio Hm Hfair.
  intros HP HC. pose proof (survives w cf Hm Hfair _ HP HC) as D.
  destruct (block_step w cf Hio Hm Hfair bs b D) as (e & L & Q & _). exists e. split; [exact L|]. rewrite Q.
  apply Forall_app in HC as [HC Hb]. apply Forall_one in Hb. apply to_save_saves; [|exact Hb].
  unfold last_accepted. destruct (last bs) as [b'|] eqn:E; [|constructor]. apply last_Some in E as [bs' ->].
  apply Forall_app in HC as [_ HC]. by apply Forall_one in HC.
Qed.
Lemma block_events_spec bs b : s_dead (loop w cf (bs ++ [b]) new_saver) = false ->
  exists e, s_log (loop w cf (bs ++ [b]) new_saver) = s_log (loop w cf bs new_saver) ++ e /\
    forall k, k <> 0%N ->
      (k ∉ cookies_of (last_accepted cf bs) -> k ∈ cookies_of (accepted cf b) -> events k e = [true]) /\
      (k ∈ cookies_of (last_accepted cf bs) -> k ∉ cookies_of (accepted cf b) -> events k e = [false]) /\
      ((k ∈ cookies_of (last_accepted cf bs) <-> k ∈ cookies_of (accepted cf b)) -> events k e = []).
Proof using Hio Hm Hfair.
  intros D. destruct (block_step w cf Hio Hm Hfair bs b D) as (e & L & _ & E). exists e. split; [exact L|].
  intros k Hk. rewrite (E k Hk). unfold block_events, cookies_of.
  assert (A : forall l, k ∈ rec_cookie <$> l <-> latest k l <> None).
  { intros l. rewrite latest_None. destruct (decide (k ∈ rec_cookie <$> l)); tauto. }
  rewrite !A. destruct (latest k (last_accepted cf bs)), (latest k (accepted cf b)); repeat split; try tauto;
    intros; exfalso; intuition discriminate.
Qed.
End Saved.
