(** The saver over whole blocks: cache, connection table, events and queued
    records in terms of the accepted records of the blocks. *)
From stdpp Require Import gmap.
From Coq Require Import NArith ZArith Lia.
From Verif Require Import GoBase GoBaseFacts GoTime Inetdiag Netlink SpecNetlink SpecCompare RecordFacts CompareFacts
  Cache SpecCache CacheFacts Saver SpecSaver SaverSteps SaverFiles SaverJobs.

(** ** latest *)
Lemma latest_snoc k l r : latest k (l ++ [r]) = if decide (rec_cookie r = k) then Some r else latest k l.
Proof.
  unfold latest. rewrite filter_app. case_decide as E.
  - rewrite filter_cons_True by exact E. rewrite filter_nil. by rewrite last_snoc.
  - rewrite filter_cons_False by exact E. rewrite filter_nil, app_nil_r. done.
Qed.
Lemma latest_Some k l r : latest k l = Some r -> rec_cookie r = k /\ r ∈ l.
Proof.
  unfold latest. intros H. apply last_Some in H as [l' H].
  assert (Hin : r ∈ filter (fun r => rec_cookie r = k) l) by (rewrite H; apply elem_of_app; right; constructor).
  apply elem_of_list_filter in Hin. done.
Qed.
Lemma latest_None k l : latest k l = None <-> k ∉ (rec_cookie <$> l).
Proof.
  unfold latest. rewrite last_None. split.
  - intros H Hin. apply elem_of_list_fmap in Hin as (m & -> & Hm).
    assert (Hf : m ∈ filter (fun x => rec_cookie x = rec_cookie m) l) by (apply elem_of_list_filter; done).
    rewrite H in Hf. inversion Hf.
  - intros H. destruct (filter _ l) as [|m l'] eqn:E; [done|]. exfalso. apply H.
    assert (Hm : m ∈ filter (fun x => rec_cookie x = k) l) by (rewrite E; constructor).
    apply elem_of_list_filter in Hm as [<- Hm]. by apply elem_of_list_fmap_1.
Qed.

(** ** The cache *)
Definition cache_is (prevb curb : list archival) (c : cache) : Prop :=
  (forall k, c_ar <$> cur c !! k = latest k curb) /\
  (forall k, c_ar <$> prev c !! k = reference prevb curb k).
Lemma cache_is_new : cache_is [] [] new_cache.
Proof. split; intros k; cbn; by rewrite lookup_empty. Qed.
Lemma cache_is_update P C c m : cache_is P C c -> usable m ->
  exists old c', update c m = (Ret old, c') /\ c_ar <$> old = reference P C (cookie_of m) /\ cache_is P (C ++ [c_ar m]) c'.
Proof.
  intros [Hc Hp] Hu. unfold update. rewrite (record_cookie_usable m Hu). pose proof (Hp (cookie_of m)) as Hk.
  assert (Hrep : forall p, (forall k, p !! k = if decide (cookie_of m = k) then None else prev c !! k) ->
            cache_is P (C ++ [c_ar m]) (mkcache (<[cookie_of m:=m]> (cur c)) p (cycles c))).
  { intros p Hpk. split; cbn [cur prev]; intros k.
    - rewrite latest_snoc. fold (cookie_of m). unfold rec_cookie. fold (cookie_of m).
      case_decide as E; [subst; by rewrite lookup_insert|rewrite lookup_insert_ne by done; apply Hc].
    - rewrite Hpk. unfold reference. rewrite latest_snoc. unfold rec_cookie. fold (cookie_of m).
      case_decide as E; [done|apply Hp]. }
  destruct (prev c !! cookie_of m) as [ev|] eqn:Ep; eexists _, _; (split; [done|]); (split; [done|]); apply Hrep.
  - intros k. case_decide as E; [subst; apply lookup_delete|by rewrite lookup_delete_ne].
  - intros k. case_decide as E; [by subst|done].
Qed.
Lemma cache_is_end P C c : cache_is P C c ->
  (forall k, c_ar <$> (end_cycle c).1 !! k = reference P C k) /\ cache_is C [] (end_cycle c).2.
Proof.
  intros [Hc Hp]. split; [exact Hp|]. split; intros k; cbn; [by rewrite lookup_empty|]. unfold reference. cbn. apply Hc.
Qed.

Section Blocks.
Variables (w : world) (cf : config).

(** ** One accepted message *)
(** The state when record r reaches swapAndQueue, with its identity. *)
Definition enter (r : archival) (s : saver) : saver :=
  let p := s_pos s in let l := s_loop s in
  with_loop (mkloop (l_reported l) (l_closed l) (l_last l) (add2 (l_live l) (get_stats r)))
    (with_pos (mkpos (p_clock p) (p_mkdir p) (p_create p) (p_range p) (p_writer p) (S (p_uid p))) s).
Definition accept (r : archival) (s : saver) : saver :=
  swap_and_queue w cf c_ar (mkcell (p_uid (s_pos s)) r) (enter r s).

Lemma handle_msg_cases t msg s : s_dead s = false ->
  (accepted_of (excl cf) t [msg] = [] /\ handle_msg w cf c_ar t msg s = s) \/
  (exists m, msg = Some m /\ make_archival_record m (excl cf) = Panic /\ accepted_of (excl cf) t [msg] = [] /\ 
             handle_msg w cf c_ar t msg s = crash s) \/
  (exists r, accepted_of (excl cf) t [msg] = [r] /\ 72 <= length (header r) /\ handle_msg w cf c_ar t msg s = accept r s).
Proof.
  intros Hd. unfold handle_msg, accepted_of. rewrite Hd. cbn.
  destruct msg as [m|]; [|by left]. destruct (make_archival_record m (excl cf)) as [[r|]|e| |] eqn:E.
  - right. right. eexists. split; [reflexivity|]. split; [|reflexivity].
    apply make_ret_some in E as (_ & Hl & _ & l & mx & _ & _ & _ & _ & Hr & _). unfold header. cbn [ar_raw]. rewrite Hr.
    cbn beta iota. assert (Hlen : length (raw_of m) = 72) by (unfold raw_of; apply firstn_length_le; exact Hl). lia.
  - by left.
  - by left.
  - right. left. eauto.
  - exfalso. by eapply make_no_diverge.
Qed.

Definition closing_update (r o : archival) (s : saver) : saver :=
  if negb (has_diag_info r) && has_diag_info o
  then with_closing (<[rec_cookie r := get_stats o]> (s_closing s)) (add2 (s_ctotals s) (get_stats o)) s
  else s.
Lemma accept_cases P C r s : cache_is P C (s_cache s) -> 72 <= length (header r) ->
  exists c', cache_is P (C ++ [r]) c' /\
  let m := mkcell (p_uid (s_pos s)) r in
  let s1 := with_cache c' (inc_total (enter r s)) in
  accept r s = match reference P C (rec_cookie r) with
               | None => queue w cf m (emit ASnapshot (inc_new s1))
               | Some o => let s2 := closing_update r o s1 in
                           match compare r (Some o) with
                           | Ret NoMajorChange => s2
                           | Ret _ => queue w cf m (emit ASnapshot (inc_diff s2))
                           | Fail _ => s2
                           | _ => crash s2
                           end
               end.
Proof.
  intros Hc Hl. set (m := mkcell (p_uid (s_pos s)) r).
  destruct (cache_is_update P C (s_cache s) m Hc Hl) as (old & c' & E & Ho & Hc'). exists c'. split; [exact Hc'|].
  cbn zeta. unfold accept, swap_and_queue. change (s_cache (inc_total (enter r s))) with (s_cache s). fold m. rewrite E.
  change (cookie_of m) with (rec_cookie r) in Ho. rewrite <- Ho. destruct old as [oc|]; cbn [fmap option_fmap option_map]; [|reflexivity].
  destruct (usable_parse m Hl) as (im & Eim & Ek). change (c_ar m) with r in *. rewrite Eim, Ek. reflexivity.
Qed.

(** ** Induction over the messages of a block *)
Lemma handle_type_dead t msgs s : s_dead s = true -> handle_type w cf c_ar t msgs s = s.
Proof.
  intros Hd. unfold handle_type. induction msgs as [|m msgs IH]; [done|]. cbn. unfold handle_msg at 2. rewrite Hd. exact IH.
Qed.
Lemma accepted_of_cons ex t m ms : accepted_of ex t (m :: ms) = accepted_of ex t [m] ++ accepted_of ex t ms.
Proof. unfold accepted_of. change (m :: ms) with ([m] ++ ms). by rewrite omap_app. Qed.
Lemma handle_type_cons t m msgs s :
  handle_type w cf c_ar t (m :: msgs) s = handle_type w cf c_ar t msgs (handle_msg w cf c_ar t m s).
Proof. done. Qed.
Lemma handle_type_ind (R : list archival -> saver -> Prop) t :
  (forall C r s, R C s -> s_dead s = false -> 72 <= length (header r) -> s_dead (accept r s) = false -> R (C ++ [r]) (accept r s)) ->
  forall msgs C s, R C s -> s_dead (handle_type w cf c_ar t msgs s) = false ->
    s_dead s = false /\ R (C ++ accepted_of (excl cf) t msgs) (handle_type w cf c_ar t msgs s).
Proof.
  intros Step. induction msgs as [|m msgs IH]; intros C s HR Ha.
  - split; [exact Ha|]. by rewrite app_nil_r.
  - destruct (s_dead s) eqn:Hd. { rewrite handle_type_dead in Ha by exact Hd. congruence. }
    split; [done|]. rewrite handle_type_cons in *. rewrite accepted_of_cons.
    destruct (handle_msg_cases t m s Hd) as [[E1 E2]|[(x & _ & _ & E1 & E2)|(r & E1 & Hf & E2)]]; rewrite E1, E2 in *.
    + by apply IH.
    + rewrite handle_type_dead in Ha by done. done.
    + rewrite app_assoc. apply IH; [|exact Ha]. apply Step; [done..|].
      destruct (s_dead (accept r s)) eqn:Hd2; [|done]. rewrite handle_type_dead in Ha by exact Hd2. congruence.
Qed.
(** Both address families. *)
Definition take_block (b : block) (s : saver) : saver :=
  handle_type w cf c_ar (V6Time b) (V6Messages b) (handle_type w cf c_ar (V4Time b) (V4Messages b) s).
Lemma take_block_ind (R : list archival -> saver -> Prop) :
  (forall C r s, R C s -> s_dead s = false -> 72 <= length (header r) -> s_dead (accept r s) = false -> R (C ++ [r]) (accept r s)) ->
  forall b s, R [] s -> s_dead (take_block b s) = false ->
    s_dead s = false /\ R (accepted cf b) (take_block b s).
Proof.
  intros Step b s HR Ha. unfold take_block in *.
  destruct (s_dead (handle_type w cf c_ar (V4Time b) (V4Messages b) s)) eqn:Hd.
  { rewrite handle_type_dead in Ha by exact Hd. congruence. }
  destruct (handle_type_ind R (V4Time b) Step (V4Messages b) [] s HR Hd) as [Hs H4]. split; [done|].
  destruct (handle_type_ind R (V6Time b) Step (V6Messages b) _ _ H4 Ha) as [_ H6]. exact H6.
Qed.

(** ** The residual loop *)
Definition close_all (rs : list (N * cell)) (s : saver) : saver := foldl (fun s km => close_one w cf c_ar km s) s rs.
Lemma close_all_dead rs s : s_dead s = true -> close_all rs s = s.
Proof.
  intros Hd. unfold close_all. induction rs as [|m rs IH]; [done|]. cbn. unfold close_one at 2. rewrite Hd. exact IH.
Qed.
Lemma end_round_spec s : fair_order w -> s_dead s = false ->
  exists rs, end_round w s =
    (rs, let p := s_pos s in with_pos (mkpos (p_clock p) (p_mkdir p) (p_create p) (S (p_range p)) (p_writer p) (p_uid p))
         (with_cache (end_cycle (s_cache s)).2 (emit (ACacheSize (size (cur (s_cache s)))) s))) /\
    rs ≡ₚ map_to_list (end_cycle (s_cache s)).1.
Proof.
  intros Hf Hd. unfold end_round. rewrite Hd. cbn. eexists. split; [reflexivity|].
  specialize (Hf (p_range (s_pos s)) (map_to_list (prev (s_cache s))).*1).
  set (m := prev (s_cache s)) in *. clearbody m.
  etransitivity.
  { apply (omap_Permutation _). exact Hf. }
  assert (G : forall l, (forall k x, (k, x) ∈ l -> m !! k = Some x) ->
    omap (fun k => match m !! k with Some x => Some (k, x) | None => None end) l.*1 = l).
  { induction l as [|[k x] l IH]; intros Hl; [done|]. cbn. rewrite (Hl k x) by constructor. f_equal. apply IH.
    intros. apply Hl. by constructor. }
  rewrite G; [done|]. intros k x. by rewrite elem_of_map_to_list.
Qed.

Lemma do_block_eq b s :
  do_block w cf c_ar b s = report (V4Time b) (close_all (end_round w (take_block b s)).1 (end_round w (take_block b s)).2).
Proof. unfold do_block, take_block, close_all. by destruct (end_round w _) as [rs s']. Qed.
Lemma end_round_dead s : s_dead s = true -> end_round w s = ([], s).
Proof. unfold end_round. by intros ->. Qed.
Lemma report_dead t s : s_dead (report t s) = s_dead s.
Proof.
  unfold report. destruct (s_dead s) eqn:E; [done|]. destruct (_ <? _)%Z; [|done]. unfold report_one.
  repeat (destruct (_ || _)); done.
Qed.
Lemma close_one_dead k m s : s_dead s = false -> 1 <= nmarsh cf -> s_dead (close_one w cf c_ar (k, m) s) = false.
Proof.
  intros Hd Hm. unfold close_one. rewrite Hd.
  lazymatch goal with |- context [let '(_, _) := ?x in _] => assert (Hx : s_dead x.2 = false) end.
  { destruct (negb _); [|done]. by destruct (s_closing s !! k). }
  lazymatch goal with |- context [let '(_, _) := ?x in _] => destruct x as [st s1] end.
  cbn [snd] in Hx. cbn zeta.
  lazymatch goal with |- context [end_conn w cf k ?s2] => destruct (end_conn_effect w cf k s2 Hm) as [R _] end.
  destruct R as (_ & _ & _ & _ & _ & Hde & _). change (s_dead (with_loop _ s1)) with (s_dead s1) in Hde. rewrite Hx in Hde.
  rewrite Hde. exact Hde.
Qed.

(** ** The invariant when files can be created *)
Definition toggled (k : N) (s : saver) : Prop :=
  alternating true (events k (s_log s)) /\
  (Nat.odd (length (events k (s_log s))) = true <-> is_Some (s_conns s !! k)).
Lemma alternating_snoc b l : alternating b l -> alternating b (l ++ [xorb b (Nat.odd (length l))]).
Proof.
  revert b. induction l as [|x l IH]; intros b; cbn -[Nat.odd].
  - intros _. split; [|done]. by destruct b.
  - intros [-> H]. split; [done|]. specialize (IH (negb b) H). rewrite Nat.odd_succ, <- Nat.negb_odd.
    replace (xorb b (negb (Nat.odd (length l)))) with (xorb (negb b) (Nat.odd (length l))); [exact IH|].
    by destruct b, (Nat.odd (length l)).
Qed.
Lemma alternating_app_one l x : alternating true l -> (x = true <-> Nat.odd (length l) = false) -> alternating true (l ++ [x]).
Proof.
  intros H Hx. replace x with (xorb true (Nat.odd (length l))); [by apply alternating_snoc|].
  destruct x, (Nat.odd (length l)); try done; exfalso; destruct Hx as [A B];
    first [discriminate (A eq_refl)|discriminate (B eq_refl)].
Qed.

Record Inv (P C : list archival) (s : saver) : Prop := {
  inv_alive : s_dead s = false;
  inv_cache : cache_is P C (s_cache s);
  inv_zero : s_conns s !! 0%N = None;
  inv_conns : forall k, k <> 0%N -> (is_Some (s_conns s !! k) <-> latest k C <> None \/ latest k P <> None);
  inv_writer : forall k c, s_conns s !! k = Some c -> is_Some (cn_writer c);
  inv_events : forall k, k <> 0%N -> toggled k s }.

Lemma Inv_new : Inv [] [] new_saver.
Proof.
  split; [done|apply cache_is_new|done| |done|].
  - intros k Hk. split; [by intros []|]. by intros [].
  - intros k Hk. split; [done|]. split; [done|by intros []].
Qed.

Hypothesis Hio : io_ok w.
Hypothesis Hm : 1 <= nmarsh cf.

(** What one accepted record adds. *)
Definition open_event (k : N) (P C : list archival) (r : archival) : list bool :=
  if decide (rec_cookie r = k /\ k <> 0%N) then block_events k (P ++ C) [r] else [].
Lemma latest_app k l1 l2 : latest k (l1 ++ l2) = match latest k l2 with Some r => Some r | None => latest k l1 end.
Proof.
  induction l2 as [|r l2 IH] using rev_ind; [by rewrite app_nil_r|].
  rewrite app_assoc, !latest_snoc. case_decide; [done|exact IH].
Qed.
Lemma latest_one k r : latest k [r] = if decide (rec_cookie r = k) then Some r else None.
Proof. apply (latest_snoc k [] r). Qed.

Lemma open_event_conns k0 P C r (x : option conn) : rec_cookie r = k0 -> k0 <> 0%N ->
  (is_Some x <-> latest k0 C <> None \/ latest k0 P <> None) ->
  match x with None => [true] | Some _ => [] end = open_event k0 P C r.
Proof.
  intros E H0. unfold open_event, block_events. rewrite decide_True by (split; assumption).
  rewrite latest_app, latest_one, E. rewrite (decide_True (P := k0 = k0)) by reflexivity.
  generalize (latest k0 C) as a, (latest k0 P) as b. clear. intros a b [H1 H2].
  destruct x as [c|], a as [|], b as [|]; try reflexivity; exfalso.
  - destruct (H1 (mk_is_Some _ _ eq_refl)); congruence.
  - destruct H2 as [? ?]; [left; congruence|discriminate].
  - destruct H2 as [? ?]; [left; congruence|discriminate].
  - destruct H2 as [? ?]; [right; congruence|discriminate].
Qed.
Lemma open_event_other k P C r : rec_cookie r <> k -> open_event k P C r = [].
Proof. intros H. unfold open_event. rewrite decide_False; [reflexivity|]. intros [? _]. contradiction. Qed.

Lemma toggle_on l (x : option conn) (c : conn) :
  alternating true l /\ (Nat.odd (length l) = true <-> is_Some x) ->
  let l' := l ++ match x with None => [true] | Some _ => [] end in
  alternating true l' /\ (Nat.odd (length l') = true <-> is_Some (Some c)).
Proof.
  intros [A1 A2]. destruct x as [x|]; cbn zeta.
  - rewrite app_nil_r. split; [exact A1|]. split; [by eexists|]. intros _. apply A2. by eexists.
  - assert (O : Nat.odd (length l) = false).
    { destruct (Nat.odd _); [|done]. destruct A2 as [A2 _]. destruct (A2 eq_refl). done. }
    split; [by apply alternating_app_one|]. rewrite app_length. cbn [length].
    rewrite Nat.add_1_r, Nat.odd_succ, <- Nat.negb_odd, O. split; [by eexists|done].
Qed.
Lemma toggle_off l (c : conn) : alternating true l /\ (Nat.odd (length l) = true <-> is_Some (Some c)) ->
  let l' := l ++ [false] in
  alternating true l' /\ (Nat.odd (length l') = true <-> is_Some (None : option conn)).
Proof.
  intros [A1 A2]. cbn zeta.
  assert (O : Nat.odd (length l) = true) by (apply A2; by eexists).
  split; [apply alternating_app_one; [done|]; rewrite O; done|]. rewrite app_length. cbn [length].
  rewrite Nat.add_1_r, Nat.odd_succ, <- Nat.negb_odd, O. split; [done|]. by intros [].
Qed.

(** Queueing record r from a state whose table and log are those of s. *)
Lemma queue_inv P C r s s1 m : Inv P C s -> usable m -> c_ar m = r ->
  s_conns s1 = s_conns s -> s_log s1 = s_log s ++ [ASnapshot] -> s_dead s1 = false -> cache_is P (C ++ [r]) (s_cache s1) ->
  let s' := queue w cf m s1 in
  Inv P (C ++ [r]) s' /\ exists e, s_log s' = s_log s ++ e /\
    queued e = (if negb (N.eqb (rec_cookie r) 0) then [r] else []) /\
    forall k, events k e = open_event k P C r.
Proof using Hio Hm.
  intros [Ia Ic I0 Ik Iw Ie] Hu Hr Hc Hl Hd Hca s'. subst r. change (cookie_of m) with (rec_cookie (c_ar m)) in *.
  assert (Hk : cookie_of m = rec_cookie (c_ar m)) by done.
  destruct (N.eqb_spec (rec_cookie (c_ar m)) 0) as [H0|H0].
  - assert (E : s' = s1) by (apply queue_zero; [done|congruence]). rewrite E. clear E s'. split.
    + split; [done|done|by rewrite Hc| |by rewrite Hc|].
      * intros k Hne. rewrite Hc, latest_snoc. rewrite decide_False by congruence. by apply Ik.
      * intros k Hne. unfold toggled. rewrite Hc, Hl, events_app, app_nil_r. by apply Ie.
    + exists [ASnapshot]. split; [done|]. split; [done|]. intros k. unfold open_event. rewrite decide_False; [done|].
      intros [E1 E2]. congruence.
  - destruct (queue_effect w cf m s1 Hu) as (R & e & c' & L & Cn & Ev & _ & Good); [by rewrite Hk|exact Hm|].
    fold s' in R, L, Cn. rewrite Hk in *. remember (rec_cookie (c_ar m)) as k0 eqn:Ek0. symmetry in Ek0.
    destruct (Good Hio) as [Q [wr W]]. destruct R as (Rc & _ & _ & _ & _ & Rd & _).
    rewrite Hc in Cn, Ev. rewrite Hl in L.
    assert (EvO : forall k, events k ([ASnapshot] ++ e) = open_event k P C (c_ar m)).
    { intros k. rewrite events_app, Ev. cbn [events omap list_omap app].
      destruct (decide (k = k0)) as [->|Hne].
      - apply open_event_conns; [exact Ek0|exact H0|exact (Ik k0 H0)].
      - symmetry. apply open_event_other. congruence. }
    split.
    + split.
      * congruence.
      * congruence.
      * rewrite Cn, lookup_insert_ne by done. exact I0.
      * intros k Hne. rewrite Cn, latest_snoc, Ek0. destruct (decide (k0 = k)) as [->|Hk0].
        -- rewrite lookup_insert. split; [by left|by eexists].
        -- rewrite lookup_insert_ne by done. by apply Ik.
      * intros k c. rewrite Cn. destruct (decide (k0 = k)) as [->|Hk0].
        -- rewrite lookup_insert. intros E. injection E as <-. by eexists.
        -- rewrite lookup_insert_ne by done. apply Iw.
      * intros k Hne. unfold toggled. rewrite L, Cn, <- app_assoc, events_app, events_app, Ev.
        cbn [events omap list_omap app].
        destruct (decide (k = k0)) as [->|Hne'].
        -- rewrite lookup_insert. apply toggle_on. exact (Ie k0 Hne).
        -- rewrite app_nil_r, lookup_insert_ne by congruence. exact (Ie k Hne).
    + exists ([ASnapshot] ++ e). rewrite L, <- app_assoc. split; [done|]. split; [by rewrite queued_app, Q|exact EvO].
Qed.

(** Nothing but the cache and the counters changes. *)
Lemma unsaved_inv P C r s s' : Inv P C s -> s_conns s' = s_conns s -> s_log s' = s_log s -> s_dead s' = false ->
  cache_is P (C ++ [r]) (s_cache s') -> (exists o, reference P C (rec_cookie r) = Some o) ->
  Inv P (C ++ [r]) s' /\ exists e, s_log s' = s_log s ++ e /\ queued e = [] /\ forall k, events k e = open_event k P C r.
Proof.
  intros [Ia Ic I0 Ik Iw Ie] Hc Hl Hd Hca [o Ho].
  assert (HC : latest (rec_cookie r) C = None /\ latest (rec_cookie r) P = Some o).
  { unfold reference in Ho. destruct (latest _ C); done. }
  destruct HC as [HC HP]. split.
  - split; [exact Hd|exact Hca|by rewrite Hc| |by rewrite Hc|].
    + intros k Hne. rewrite Hc, latest_snoc. rewrite (Ik k Hne). case_decide as E; [|done].
      subst k. rewrite HC, HP. split; intros _; [left|right]; discriminate.
    + intros k Hne. unfold toggled. rewrite Hc, Hl. exact (Ie k Hne).
  - exists []. rewrite app_nil_r. split; [exact Hl|]. split; [reflexivity|]. intros k.
    unfold open_event. case_decide as E; [|reflexivity]. destruct E as [<- _]. unfold block_events.
    rewrite latest_app, HC, HP, latest_one. rewrite decide_True by reflexivity. reflexivity.
Qed.

Lemma closing_update_same r o s : let s' := closing_update r o s in
  s_conns s' = s_conns s /\ s_log s' = s_log s /\ s_dead s' = s_dead s /\ s_cache s' = s_cache s /\ s_stats s' = s_stats s
  /\ s_loop s' = s_loop s.
Proof. unfold closing_update. destruct (_ && _); repeat split. Qed.

Definition saved (P C : list archival) (r : archival) : list archival :=
  if worth_saving P C r && negb (N.eqb (rec_cookie r) 0) then [r] else [].
Lemma accept_inv P C r s : Inv P C s -> 72 <= length (header r) -> s_dead (accept r s) = false ->
  Inv P (C ++ [r]) (accept r s) /\ exists e, s_log (accept r s) = s_log s ++ e /\
    queued e = saved P C r /\ forall k, events k e = open_event k P C r.
Proof using Hio Hm.
  intros I Hf Ha. pose proof (inv_cache _ _ _ I) as Ic. pose proof (inv_alive _ _ _ I) as Ia.
  destruct (accept_cases P C r s Ic Hf) as (c' & Hc' & E). cbn zeta in E. rewrite E in *. clear E.
  unfold saved, worth_saving. destruct (reference P C (rec_cookie r)) as [o|] eqn:Er.
  - set (s1 := with_cache c' (inc_total (enter r s))) in *.
    destruct (closing_update_same r o s1) as (K1 & K2 & K3 & K4 & _). set (s2 := closing_update r o s1) in *.
    assert (U : s_dead s2 = false -> Inv P (C ++ [r]) s2 /\ exists e, s_log s2 = s_log s ++ e /\ queued e = [] /\ forall k, events k e = open_event k P C r).
    { intros D. apply unsaved_inv; [exact I|rewrite K1; reflexivity|rewrite K2; reflexivity|exact D|rewrite K4; exact Hc'|].
      exists o. exact Er. }
    assert (Q : Inv P (C ++ [r]) (queue w cf (mkcell (p_uid (s_pos s)) r) (emit ASnapshot (inc_diff s2))) /\
      exists e, s_log (queue w cf (mkcell (p_uid (s_pos s)) r) (emit ASnapshot (inc_diff s2))) = s_log s ++ e /\
        queued e = (if negb (N.eqb (rec_cookie r) 0) then [r] else []) /\ forall k, events k e = open_event k P C r).
    { apply queue_inv; [exact I|exact Hf|reflexivity|..].
      - change (s_conns s2 = s_conns s). rewrite K1. reflexivity.
      - change (s_log s2 ++ [ASnapshot] = s_log s ++ [ASnapshot]). rewrite K2. reflexivity.
      - change (s_dead s2 = false). rewrite K3. exact Ia.
      - change (cache_is P (C ++ [r]) (s_cache s2)). rewrite K4. exact Hc'. }
    destruct (compare r (Some o)) as [[]|e| |]; cbn [andb]; try exact Q; try (apply U; exact Ha); discriminate Ha.
  - cbn [andb]. apply queue_inv; [exact I|exact Hf|reflexivity|reflexivity|reflexivity|exact Ia|exact Hc'].
Qed.

(** The messages of one block *)
Lemma saves_app P C l1 l2 : saves P C (l1 ++ l2) = saves P C l1 ++ saves P (C ++ l1) l2.
Proof.
  revert C. induction l1 as [|r l1 IH]; intros C; cbn; [by rewrite app_nil_r|]. rewrite IH, <- !app_assoc. done.
Qed.
Lemma take_block_inv P b s : Inv P [] s -> s_dead (take_block b s) = false ->
  Inv P (accepted cf b) (take_block b s) /\ exists e, s_log (take_block b s) = s_log s ++ e /\
    queued e = saves P [] (accepted cf b) /\
    forall k, events k e = if decide (k = 0%N) then [] else if latest k P then [] else block_events k P (accepted cf b).
Proof using Hio Hm.
  intros I Ha.
  set (R := fun C s' => Inv P C s' /\ exists e, s_log s' = s_log s ++ e /\ queued e = saves P [] C /\
    forall k, events k e = if decide (k = 0%N) then [] else if latest k P then [] else block_events k P C).
  refine (proj2 (take_block_ind R _ b s _ Ha)).
  - intros C r s1 [I1 (e & L & Q & Ev)] Hd Hf Hd'. destruct (accept_inv P C r s1 I1 Hf Hd') as [I2 (e2 & L2 & Q2 & Ev2)].
    split; [exact I2|]. exists (e ++ e2). rewrite L2, L, app_assoc. split; [reflexivity|]. split.
    + rewrite queued_app, saves_app, Q, Q2. cbn. rewrite app_nil_r. reflexivity.
    + intros k. rewrite events_app, Ev, Ev2. unfold open_event, block_events. rewrite latest_app, latest_snoc, latest_one.
      clear. destruct (latest k P), (latest k C); repeat case_decide; try reflexivity; naive_solver.
  - split; [exact I|]. exists []. rewrite app_nil_r. split; [reflexivity|]. split; [reflexivity|].
    intros k. case_decide; [reflexivity|]. unfold block_events. cbn. destruct (latest k P); reflexivity.
Qed.

(** Closing *)
Definition residual_stats (k : N) (m : cell) (s : saver) : N * N :=
  if has_diag_info (c_ar m) then get_stats (c_ar m) else default (0, 0)%N (s_closing s !! k).
Lemma close_one_effect k m s : s_dead s = false ->
  let s' := close_one w cf c_ar (k, m) s in
  s_dead s' = false /\ s_cache s' = s_cache s /\
  (exists e, s_log s' = s_log s ++ e /\ queued e = [] /\ (forall k', events k' e = if decide (k' = k) then [false] else [])) /\
  s_conns s' = match s_conns s !! k with
               | Some c => match cn_writer c with Some _ => delete k (s_conns s) | None => s_conns s end
               | None => s_conns s end.
Proof using Hm.
  intros Hd s'. split; [by apply close_one_dead|]. subst s'. unfold close_one. rewrite Hd.
  lazymatch goal with |- context [let '(_, _) := ?x in _] =>
    assert (Hx : s_dead x.2 = false /\ s_cache x.2 = s_cache s /\ s_log x.2 = s_log s /\ s_conns x.2 = s_conns s) end.
  { destruct (negb _); [|done]. by destruct (s_closing s !! k). }
  lazymatch goal with |- context [let '(_, _) := ?x in _] => destruct x as [st s1] end.
  cbn [snd] in Hx. destruct Hx as (X1 & X2 & X3 & X4). cbn zeta.
  lazymatch goal with |- context [end_conn w cf k ?s2] => destruct (end_conn_effect w cf k s2 Hm) as [R (e & L & Q & Ev & Cn)];
    set (s3 := end_conn w cf k s2) in *; clearbody s3 end.
  destruct R as (Rc & _ & _ & _ & _ & Hde & _). cbn in Rc, Hde, L, Cn. rewrite X1 in Hde. rewrite Hde.
  cbn. rewrite X4 in Cn. rewrite X3 in L. rewrite X2 in Rc. eauto 10.
Qed.

Lemma close_all_inv : forall rs s,
  s_dead s = false -> s_conns s !! 0%N = None -> (forall k c, s_conns s !! k = Some c -> is_Some (cn_writer c)) ->
  (forall k, k <> 0%N -> toggled k s) -> NoDup rs.*1 -> (forall k, k ∈ rs.*1 -> k <> 0%N -> is_Some (s_conns s !! k)) ->
  let s' := close_all rs s in
  s_dead s' = false /\ s_cache s' = s_cache s /\
  (forall k, s_conns s' !! k = if decide (k ∈ rs.*1) then None else s_conns s !! k) /\
  (forall k, k <> 0%N -> toggled k s') /\
  exists e, s_log s' = s_log s ++ e /\ queued e = [] /\ forall k, events k e = if decide (k ∈ rs.*1) then [false] else [].
Proof using Hm.
  induction rs as [|[k0 m] rs IH]; intros s Hd H0 Hw Ht Hn Hin.
  - cbn zeta. split; [exact Hd|]. split; [reflexivity|]. split; [intros k; reflexivity|]. split; [exact Ht|].
    exists []. rewrite app_nil_r. repeat split; reflexivity.
  - cbn zeta. change (close_all ((k0, m) :: rs) s) with (close_all rs (close_one w cf c_ar (k0, m) s)).
    destruct (close_one_effect k0 m s Hd) as (Cd & Cc & (e & L & Q & Ev) & Cn).
    set (s1 := close_one w cf c_ar (k0, m) s) in *. clearbody s1.
    rewrite fmap_cons in Hn, Hin. cbn [fst] in Hn, Hin. apply NoDup_cons in Hn as [Hk0 Hn].
    assert (Cn' : s_conns s1 = delete k0 (s_conns s)).
    { rewrite Cn. destruct (s_conns s !! k0) as [c|] eqn:E.
      - destruct (Hw _ _ E) as [wr ->]. reflexivity.
      - symmetry. apply delete_notin. exact E. }
    destruct (IH s1 Cd) as (A1 & A2 & A3 & A4 & e' & L' & Q' & Ev').
    + rewrite Cn'. destruct (decide (k0 = 0%N)) as [->|]; [apply lookup_delete|rewrite lookup_delete_ne by assumption; exact H0].
    + intros k c. rewrite Cn'. rewrite lookup_delete_Some. intros [_ E]. eapply Hw, E.
    + intros k Hne. unfold toggled. rewrite L, Cn', events_app, Ev. case_decide as E.
      * subst k. rewrite lookup_delete. destruct (Hin k0) as [c Ec]; [constructor|exact Hne|].
        apply toggle_off with c. rewrite <- Ec. exact (Ht k0 Hne).
      * rewrite app_nil_r, lookup_delete_ne by congruence. exact (Ht k Hne).
    + exact Hn.
    + intros k Hk Hne. rewrite Cn'. rewrite lookup_delete_ne by (intros ->; contradiction). apply Hin; [by constructor|exact Hne].
    + split; [exact A1|]. split; [congruence|]. split; [|split; [exact A4|]].
      * intros k. rewrite A3, Cn'. rewrite fmap_cons. cbn [fst].
        destruct (decide (k = k0)) as [->|Hne].
        -- rewrite decide_False by exact Hk0. rewrite decide_True by constructor. apply lookup_delete.
        -- rewrite lookup_delete_ne by congruence. destruct (decide (k ∈ rs.*1)) as [H|H].
           ++ rewrite decide_True by (by constructor). reflexivity.
           ++ rewrite decide_False by (rewrite elem_of_cons; tauto). reflexivity.
      * exists (e ++ e'). rewrite L', L, app_assoc. split; [reflexivity|]. split; [rewrite queued_app, Q, Q'; reflexivity|].
        intros k. rewrite events_app, Ev, Ev'. rewrite fmap_cons. cbn [fst]. destruct (decide (k = k0)) as [->|Hne].
        -- rewrite decide_False by exact Hk0. rewrite decide_True by constructor. reflexivity.
        -- destruct (decide (k ∈ rs.*1)) as [H|H].
           ++ rewrite decide_True by (by constructor). reflexivity.
           ++ rewrite decide_False by (rewrite elem_of_cons; tauto). reflexivity.
Qed.

Lemma report_one_log total rep obs err s : (forall n, neutral (obs n) = true) -> (forall n, neutral (err n) = true) ->
  exists n a, report_one total rep obs err s = (n, emit a s) /\ neutral a = true.
Proof. intros Ho He. unfold report_one. destruct (_ || _); eexists _, _; (split; [reflexivity|]); auto. Qed.
Lemma report_effect t s : let s' := report t s in
  s_dead s' = s_dead s /\ s_cache s' = s_cache s /\ s_conns s' = s_conns s /\ s_stats s' = s_stats s /\
  exists e, s_log s' = s_log s ++ e /\ forallb neutral e = true.
Proof.
  cbn zeta. split; [apply report_dead|]. unfold report. destruct (s_dead s).
  { do 3 (split; [reflexivity|]). exists []. by rewrite app_nil_r. }
  destruct (_ <? _)%Z.
  - lazymatch goal with |- context [report_one ?a ?b AObsSent AErrSent s] =>
      destruct (report_one_log a b AObsSent AErrSent s) as (n1 & a1 & -> & N1); [done..|] end.
    lazymatch goal with |- context [report_one ?a ?b AObsRecv AErrRecv ?s1] =>
      destruct (report_one_log a b AObsRecv AErrRecv s1) as (n2 & a2 & -> & N2); [done..|] end.
    do 3 (split; [reflexivity|]). exists [a1; a2]. cbn. rewrite <- app_assoc, N1, N2. done.
  - do 3 (split; [reflexivity|]). exists []. by rewrite app_nil_r.
Qed.
Lemma neutral_events k e : forallb neutral e = true -> events k e = [] /\ queued e = [].
Proof.
  induction e as [|a e IH]; [done|]. cbn. intros H. apply andb_prop in H as [H1 H2]. destruct (IH H2) as [E Q].
  unfold events, queued in *. cbn. by destruct a.
Qed.

(** ** One block *)
Hypothesis Hfair : fair_order w.
Lemma do_block_inv P b s : Inv P [] s -> s_dead (do_block w cf c_ar b s) = false ->
  Inv (accepted cf b) [] (do_block w cf c_ar b s) /\
  exists e, s_log (do_block w cf c_ar b s) = s_log s ++ e /\ queued e = saves P [] (accepted cf b) /\
    forall k, k <> 0%N -> events k e = block_events k P (accepted cf b).
Proof using Hio Hm Hfair.
  intros I. rewrite do_block_eq. set (C := accepted cf b).
  destruct (s_dead (take_block b s)) eqn:Hd.
  { rewrite (end_round_dead _ Hd). cbn [fst snd]. rewrite close_all_dead by exact Hd. rewrite report_dead, Hd. discriminate. }
  intros _. destruct (take_block_inv P b s I Hd) as [[Ia Ic I0 Ik Iw Ie] (e1 & L1 & Q1 & Ev1)]. fold C in Ic, Ik, Q1, Ev1.
  set (s1 := take_block b s) in *. clearbody s1.
  destruct (end_round_spec s1 Hfair Hd) as (rs & -> & Hperm). cbn [fst snd]. cbn zeta.
  destruct (cache_is_end _ _ _ Ic) as [Hres Hc2].
  set (s2 := with_pos _ _).
  assert (Hkeys : forall k, k ∈ rs.*1 <-> latest k C = None /\ latest k P <> None).
  { intros k. rewrite elem_of_list_fmap. specialize (Hres k). unfold reference in Hres. split.
    - intros ([k' m] & -> & Hkm). cbn [fst] in *. rewrite Hperm in Hkm. apply elem_of_map_to_list in Hkm.
      rewrite Hkm in Hres. cbn in Hres. destruct (latest k' C); [discriminate|]. split; [reflexivity|congruence].
    - intros [H1 H2]. rewrite H1 in Hres. destruct ((end_cycle (s_cache s1)).1 !! k) as [m|] eqn:E; [|cbn in Hres; congruence].
      exists (k, m). split; [reflexivity|]. rewrite Hperm. by apply elem_of_map_to_list. }
  assert (Hnd : NoDup rs.*1).
  { rewrite Hperm. apply NoDup_fst_map_to_list. }
  assert (T2 : forall k, k <> 0%N -> toggled k s2).
  { intros k Hne. unfold toggled. change (s_conns s2) with (s_conns s1).
    change (s_log s2) with (s_log s1 ++ [ACacheSize (size (cur (s_cache s1)))]). rewrite events_app, app_nil_r. exact (Ie k Hne). }
  destruct (close_all_inv rs s2) as (A1 & A2 & A3 & A4 & e3 & L3 & Q3 & Ev3);
    [exact Ia|exact I0|exact Iw|exact T2|exact Hnd| |].
  { intros k Hk Hne. apply (Ik k Hne). right. by apply Hkeys. }
  set (s3 := close_all rs s2) in *. clearbody s3.
  destruct (report_effect (V4Time b) s3) as (B1 & B2 & B3 & _ & e4 & L4 & N4).
  set (s4 := report (V4Time b) s3) in *. clearbody s4. split.
  - split.
    + congruence.
    + rewrite B2, A2. exact Hc2.
    + rewrite B3, A3. case_decide; [reflexivity|exact I0].
    + intros k Hne. rewrite B3, A3. change (s_conns s2) with (s_conns s1). case_decide as Hk.
      * apply Hkeys in Hk as [Hk _]. rewrite Hk. split; [by intros []|]. intros [H|H]; by destruct H.
      * rewrite (Ik k Hne). rewrite Hkeys in Hk. destruct (latest k C); [split; intros _; [right|left]; discriminate|].
        split; [|intros [H|H]; by destruct H]. intros [H|H]; [by destruct H|]. exfalso. by apply Hk.
    + intros k c. rewrite B3, A3. case_decide; [discriminate|]. apply Iw.
    + intros k Hne. unfold toggled. rewrite B3, L4, events_app. destruct (neutral_events k e4 N4) as [-> _].
      rewrite app_nil_r. exact (A4 k Hne).
  - eexists. split; [rewrite L4, L3; change (s_log s2) with (s_log s1 ++ [ACacheSize (size (cur (s_cache s1)))]);
      rewrite L1, <- !app_assoc; reflexivity|].
    split.
    + rewrite !queued_app, Q1, Q3. destruct (neutral_events 0%N e4 N4) as [_ ->]. cbn. by rewrite app_nil_r.
    + intros k Hne. rewrite !events_app, Ev1, Ev3. destruct (neutral_events k e4 N4) as [-> _].
      rewrite decide_False by exact Hne. cbn. rewrite app_nil_r.
      unfold block_events. specialize (Hkeys k). destruct (latest k P) as [p|].
      * destruct (latest k C); [rewrite decide_False; [reflexivity|]|rewrite decide_True; [reflexivity|]].
        -- rewrite Hkeys. by intros [? _].
        -- rewrite Hkeys. split; [reflexivity|discriminate].
      * rewrite decide_False; [destruct (latest k C); reflexivity|]. rewrite Hkeys. intros [_ H]. by destruct H.
Qed.
End Blocks.
