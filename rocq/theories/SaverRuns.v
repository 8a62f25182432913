(** Whole runs of the saver. *)
From stdpp Require Import gmap.
From Coq Require Import NArith ZArith Lia.
From Verif Require Import GoBase GoBaseFacts GoTime Inetdiag Netlink SpecNetlink SpecCompare RecordFacts CompareFacts
  Cache SpecCache CacheFacts Saver SpecSaver SaverSteps SaverFiles SaverJobs SaverBlocks.

Section Runs.
Variables (w : world) (cf : config).

Lemma take_block_dead b s : s_dead s = true -> take_block w cf b s = s.
Proof. intros H. unfold take_block. rewrite (handle_type_dead _ _ (V4Time b)) by exact H. apply handle_type_dead. exact H. Qed.
Lemma do_block_dead b s : s_dead s = true -> do_block w cf c_ar b s = s.
Proof.
  intros H. rewrite do_block_eq, take_block_dead by done. rewrite end_round_dead by done. cbn [fst snd].
  rewrite close_all_dead by done. unfold report. by rewrite H.
Qed.
Lemma loop_snoc bs b s : loop w cf (bs ++ [b]) s = do_block w cf c_ar b (loop w cf bs s).
Proof. unfold loop. by rewrite foldl_app. Qed.
Lemma loop_alive bs b s : s_dead (loop w cf (bs ++ [b]) s) = false -> s_dead (loop w cf bs s) = false.
Proof.
  rewrite loop_snoc. destruct (s_dead (loop w cf bs s)) eqn:E; [|done]. rewrite do_block_dead by done. by rewrite E.
Qed.
Lemma last_accepted_snoc bs b : last_accepted cf (bs ++ [b]) = accepted cf b.
Proof. unfold last_accepted. by rewrite last_snoc. Qed.

(** ** Shutdown *)
Lemma end_conn_alive_fold : 1 <= nmarsh cf -> forall ks s, s_dead s = false -> NoDup ks ->
  let s' := foldl (fun s k => end_conn_alive w cf k s) s ks in
  same_rest s s' /\
  (forall k, s_conns s' !! k = match s_conns s !! k with
      | Some c => if decide (k ∈ ks) then match cn_writer c with Some _ => None | None => Some c end else Some c
      | None => None end) /\
  exists e, s_log s' = s_log s ++ e /\ queued e = [] /\ forall k, events k e = if decide (k ∈ ks) then [false] else [].
Proof.
  intros Hm. induction ks as [|k0 ks IH]; intros s Hd Hn.
  - cbn zeta. split; [apply same_rest_refl|]. split.
    + intros k. cbn. destruct (s_conns s !! k); reflexivity.
    + exists []. rewrite app_nil_r. repeat split; reflexivity.
  - cbn zeta. apply NoDup_cons in Hn as [Hk0 Hn].
    change (foldl _ s (k0 :: ks)) with (foldl (fun s k => end_conn_alive w cf k s) (end_conn_alive w cf k0 s) ks).
    unfold end_conn_alive at 2 4 6. rewrite Hd.
    destruct (end_conn_effect w cf k0 s Hm) as [R (e & L & Q & Ev & Cn)].
    set (s1 := end_conn w cf k0 s) in *. clearbody s1.
    destruct (IH s1) as (R' & Cn' & e' & L' & Q' & Ev'); [|exact Hn|].
    { destruct R as (_ & _ & _ & _ & _ & -> & _). exact Hd. }
    split; [by eapply same_rest_trans|]. split.
    + intros k. rewrite Cn'. destruct (decide (k = k0)) as [->|Hne].
      * rewrite Cn. destruct (s_conns s !! k0) as [c|] eqn:E0; [|by rewrite E0].
        rewrite (decide_True (P := k0 ∈ k0 :: ks)) by constructor.
        destruct (cn_writer c) eqn:Ew; [by rewrite lookup_delete|]. rewrite E0, Ew. by case_decide.
      * assert (E : s_conns s1 !! k = s_conns s !! k).
        { rewrite Cn. destruct (s_conns s !! k0) as [c|]; [|done]. destruct (cn_writer c); [|done]. by rewrite lookup_delete_ne by congruence. }
        rewrite E. destruct (s_conns s !! k) as [c|]; [|done]. destruct (decide (k ∈ ks)) as [H|H].
        -- rewrite decide_True by (by constructor). done.
        -- rewrite decide_False; [done|]. rewrite elem_of_cons. intros [?|?]; congruence.
    + exists (e ++ e'). rewrite L', L, app_assoc. split; [reflexivity|]. split; [rewrite queued_app, Q, Q'; reflexivity|].
      intros k. rewrite events_app, Ev, Ev'. destruct (decide (k = k0)) as [->|Hne].
      * rewrite decide_False by exact Hk0. rewrite decide_True by constructor. reflexivity.
      * destruct (decide (k ∈ ks)) as [H|H].
        -- rewrite decide_True by (by constructor). reflexivity.
        -- rewrite decide_False by (rewrite elem_of_cons; intros [?|?]; congruence). reflexivity.
Qed.
Lemma close_chans_effect s : s_dead s = false ->
  same_rest s (close_chans cf s) /\ s_conns (close_chans cf s) = s_conns s /\
  exists e, s_log (close_chans cf s) = s_log s ++ e /\ forallb neutral e = true /\
    e = map ACloseChan (seq 0 (nmarsh cf)) ++ [ADone].
Proof.
  intros Hd. unfold close_chans. rewrite Hd. generalize (seq 0 (nmarsh cf)) as l. intros l.
  assert (G : forall s, same_rest s (foldl (fun s q => emit (ACloseChan q) s) s l) /\
     s_conns (foldl (fun s q => emit (ACloseChan q) s) s l) = s_conns s /\
     s_log (foldl (fun s q => emit (ACloseChan q) s) s l) = s_log s ++ map ACloseChan l).
  { clear. induction l as [|q l IH]; intros s; [by rewrite app_nil_r|]. cbn. destruct (IH (emit (ACloseChan q) s)) as (R & C & L).
    split; [exact R|]. split; [exact C|]. rewrite L. cbn. by rewrite <- app_assoc. }
  destruct (G s) as (R & C & L). split; [exact R|]. split; [exact C|]. eexists. cbn. rewrite L, <- app_assoc.
  split; [reflexivity|]. split; [|reflexivity]. rewrite forallb_app. apply andb_true_intro. split; [|done].
  apply forallb_forall. intros x Hx. apply in_map_iff in Hx as (? & <- & _). done.
Qed.
Lemma close_effect s : 1 <= nmarsh cf -> fair_order w -> s_dead s = false ->
  s_dead (close w cf s) = false /\
  (forall k c, s_conns (close w cf s) !! k = Some c -> cn_writer c = None) /\
  (forall k, s_conns (close w cf s) !! k = match s_conns s !! k with
      | Some c => match cn_writer c with Some _ => None | None => Some c end
      | None => None end) /\
  exists e, s_log (close w cf s) = s_log s ++ e /\ queued e = [] /\
     forall k, events k e = match s_conns s !! k with Some _ => [false] | None => [] end.
Proof.
  intros Hm Hf Hd. unfold close. rewrite Hd. cbn [range_keys].
  set (ks := order w _ _). set (s0 := with_pos _ s).
  assert (Hp : ks ≡ₚ (map_to_list (s_conns s)).*1) by apply Hf.
  assert (Hks : forall k, k ∈ ks <-> is_Some (s_conns s !! k)).
  { intros k. rewrite Hp. rewrite elem_of_list_fmap. split.
    - intros ([k' c] & -> & H). apply elem_of_map_to_list in H. by eexists.
    - intros [c H]. exists (k, c). split; [reflexivity|]. by apply elem_of_map_to_list. }
  destruct (end_conn_alive_fold Hm ks s0 Hd) as (R & Cn & e & L & Q & Ev).
  { rewrite Hp. apply NoDup_fst_map_to_list. }
  change (s_conns s0) with (s_conns s) in Cn. change (s_log s0) with (s_log s) in L.
  set (s1 := foldl _ s0 ks) in *. clearbody s1.
  assert (Hd1 : s_dead s1 = false).
  { destruct R as (_ & _ & _ & _ & _ & -> & _). exact Hd. }
  destruct (close_chans_effect s1 Hd1) as (R2 & C2 & e2 & L2 & N2 & _).
  assert (Cn' : forall k, s_conns (close_chans cf s1) !! k = match s_conns s !! k with
      | Some c => match cn_writer c with Some _ => None | None => Some c end | None => None end).
  { intros k. rewrite C2, Cn. specialize (Hks k). destruct (s_conns s !! k) as [c|]; [|reflexivity].
    rewrite decide_True; [reflexivity|]. apply Hks. by eexists. }
  split; [destruct R2 as (_ & _ & _ & _ & _ & -> & _); exact Hd1|]. split; [|split; [exact Cn'|]].
  - intros k c. rewrite Cn'. destruct (s_conns s !! k) as [c'|]; [|discriminate].
    destruct (cn_writer c') eqn:E; [discriminate|]. intros K. injection K as <-. exact E.
  - exists (e ++ e2). rewrite L2, L, app_assoc. split; [reflexivity|].
    split; [rewrite queued_app, Q; destruct (neutral_events 0%N e2 N2) as [_ ->]; reflexivity|].
    intros k. rewrite events_app, Ev. destruct (neutral_events k e2 N2) as [-> _]. rewrite app_nil_r.
    specialize (Hks k). destruct (s_conns s !! k) as [c|].
    + rewrite decide_True; [reflexivity|]. apply Hks. by eexists.
    + rewrite decide_False; [reflexivity|]. rewrite Hks. by intros [].
Qed.

(** C20 *)
Lemma all_closed bs wr : 1 <= nmarsh cf -> fair_order w -> s_dead (loop w cf bs new_saver) = false ->
  let l := s_log (message_saver_loop w cf bs) in
  file_actions wr l = [] \/ file_history (uuid_prefix w) wr true (file_actions wr l).
Proof.
  intros Hm Hf Hd l. apply (files_closed w cf).
  - apply message_saver_loop_steps.
  - intros k c Hk. destruct (close_effect (loop w cf bs new_saver) Hm Hf Hd) as (_ & H & _). exact (H k c Hk).
Qed.

(** ** Good environments *)
Hypothesis Hio : io_ok w.
Hypothesis Hm : 1 <= nmarsh cf.
Hypothesis Hfair : fair_order w.

Lemma loop_inv bs : s_dead (loop w cf bs new_saver) = false -> Inv (last_accepted cf bs) [] (loop w cf bs new_saver).
Proof using Hio Hm Hfair.
  induction bs as [|b bs IH] using rev_ind; intros Hd; [apply Inv_new|].
  pose proof (loop_alive _ _ _ Hd) as Hd'. specialize (IH Hd'). rewrite loop_snoc, last_accepted_snoc in *.
  apply (do_block_inv w cf Hio Hm Hfair _ b _ IH Hd).
Qed.

(** C18, C24: one more block *)
Lemma block_step bs b : s_dead (loop w cf (bs ++ [b]) new_saver) = false ->
  exists e, s_log (loop w cf (bs ++ [b]) new_saver) = s_log (loop w cf bs new_saver) ++ e /\
    queued e = saves (last_accepted cf bs) [] (accepted cf b) /\
    forall k, k <> 0%N -> events k e = block_events k (last_accepted cf bs) (accepted cf b).
Proof using Hio Hm Hfair.
  intros Hd. pose proof (loop_inv bs (loop_alive _ _ _ Hd)) as I. rewrite loop_snoc in *.
  apply (do_block_inv w cf Hio Hm Hfair _ b _ I Hd).
Qed.

(** C17: also when the saver crashes *)
Lemma accept_crash P C r s : cache_is P C (s_cache s) -> 72 <= length (header r) -> s_dead s = false ->
  s_dead (accept w cf r s) = true -> s_log (accept w cf r s) = s_log s.
Proof using Hm.
  intros Hc Hf Hd. destruct (accept_cases w cf P C r s Hc Hf) as (c' & Hc' & E). cbn zeta in E. rewrite E. clear E.
  assert (Q : forall m s1, usable m -> s_dead s1 = false -> s_dead (queue w cf m s1) = true -> False).
  { intros m s1 Hu H1 H2. destruct (N.eq_dec (cookie_of m) 0) as [H0|H0].
    - rewrite queue_zero in H2 by assumption. congruence.
    - destruct (queue_effect w cf m s1 Hu H0 Hm) as ((_ & _ & _ & _ & _ & Rd & _) & _). congruence. }
  destruct (reference P C (rec_cookie r)) as [o|].
  - set (s1 := with_cache c' (inc_total (enter r s))).
    destruct (closing_update_same r o s1) as (_ & K2 & K3 & _). set (s2 := closing_update r o s1) in *.
    assert (D2 : s_dead s2 = false) by (rewrite K3; exact Hd).
    clearbody s2. destruct (compare r (Some o)) as [[]|e| |]; intros D;
      lazymatch type of D with
      | s_dead (queue _ _ _ _) = true => exfalso; refine (Q _ _ _ _ D); [exact Hf|exact D2]
      | s_dead (crash _) = true => change (s_log s2 = s_log s); rewrite K2; reflexivity
      | _ => congruence
      end.
  - intros D. exfalso. refine (Q _ _ _ _ D); [exact Hf|exact Hd].
Qed.
Definition alternates (s : saver) : Prop := forall k, k <> 0%N -> alternating true (events k (s_log s)).
Lemma Inv_alternates P C s : Inv P C s -> alternates s.
Proof using. intros I k Hk. apply (inv_events _ _ _ I k Hk). Qed.
Lemma handle_type_alternates P t msgs : forall C s, Inv P C s ->
  alternates (handle_type w cf c_ar t msgs s) /\
  (s_dead (handle_type w cf c_ar t msgs s) = false -> exists C', Inv P C' (handle_type w cf c_ar t msgs s)).
Proof using Hio Hm.
  induction msgs as [|m msgs IH]; intros C s I.
  - split; [by eapply Inv_alternates|]. intros _. by exists C.
  - rewrite handle_type_cons. pose proof (inv_alive _ _ _ I) as Hd.
    destruct (handle_msg_cases w cf t m s Hd) as [[E1 E2]|[(x & _ & _ & E1 & E2)|(r & E1 & Hf & E2)]]; rewrite E2.
    + by eapply IH.
    + rewrite handle_type_dead by done. split; [|done]. intros k Hk. exact (Inv_alternates _ _ _ I k Hk).
    + destruct (s_dead (accept w cf r s)) eqn:D.
      * rewrite handle_type_dead by exact D. rewrite D. split; [|done]. intros k Hk.
        rewrite (accept_crash P C r s (inv_cache _ _ _ I) Hf Hd D). exact (Inv_alternates _ _ _ I k Hk).
      * eapply IH. apply (accept_inv w cf Hio Hm P C r s I Hf D).
Qed.
Lemma do_block_alternates P b s : Inv P [] s -> alternates (do_block w cf c_ar b s).
Proof using Hio Hm Hfair.
  intros I. destruct (s_dead (do_block w cf c_ar b s)) eqn:D.
  - rewrite do_block_eq in *. unfold take_block in *.
    destruct (handle_type_alternates P (V4Time b) (V4Messages b) [] s I) as [A4 B4].
    set (s4 := handle_type w cf c_ar (V4Time b) (V4Messages b) s) in *. clearbody s4.
    assert (A6 : s_dead (handle_type w cf c_ar (V6Time b) (V6Messages b) s4) = true /\
                 alternates (handle_type w cf c_ar (V6Time b) (V6Messages b) s4)).
    { destruct (s_dead s4) eqn:D4.
      - rewrite handle_type_dead by exact D4. done.
      - destruct (B4 eq_refl) as [C4 I4]. split; [|by eapply handle_type_alternates].
        destruct (s_dead (handle_type w cf c_ar (V6Time b) (V6Messages b) s4)) eqn:D6; [done|].
        exfalso. revert D. destruct (end_round_spec w _ Hfair D6) as (rs & -> & _). cbn [fst snd].
        rewrite report_dead. lazymatch goal with |- s_dead (close_all _ _ rs ?x) = _ -> _ => set (s6 := x) end.
        assert (D6' : s_dead s6 = false) by exact D6. clearbody s6. clear -D6' Hm.
        revert s6 D6'. induction rs as [|[k m] rs IH]; intros s6 D6' D; [change (s_dead s6 = true) in D; congruence|].
        apply (IH (close_one w cf c_ar (k, m) s6)); [by apply close_one_dead|exact D]. }
    destruct A6 as [D6 A6]. rewrite end_round_dead by exact D6. cbn [fst snd]. rewrite close_all_dead by exact D6.
    unfold report. by rewrite D6.
  - eapply Inv_alternates. by apply (do_block_inv w cf Hio Hm Hfair _ b _ I D).
Qed.
Lemma loop_alternates bs : alternates (loop w cf bs new_saver).
Proof using Hio Hm Hfair.
  induction bs as [|b bs IH] using rev_ind; [by intros k _|]. rewrite loop_snoc.
  destruct (s_dead (loop w cf bs new_saver)) eqn:D.
  - by rewrite do_block_dead.
  - eapply do_block_alternates. by apply loop_inv.
Qed.
Lemma run_alternates bs k : k <> 0%N ->
  alternating true (events k (s_log (message_saver_loop w cf bs))) /\
  (s_dead (message_saver_loop w cf bs) = false -> Nat.even (length (events k (s_log (message_saver_loop w cf bs)))) = true).
Proof using Hio Hm Hfair.
  intros Hk. unfold message_saver_loop. destruct (s_dead (loop w cf bs new_saver)) eqn:D.
  - unfold close. rewrite D. split; [by apply loop_alternates|]. congruence.
  - pose proof (inv_events _ _ _ (loop_inv bs D) k Hk) as T. unfold toggled in T.
    destruct (close_effect _ Hm Hfair D) as (_ & _ & _ & e & L & _ & Ev). rewrite L, events_app, Ev.
    destruct (s_conns (loop w cf bs new_saver) !! k) as [c|].
    + destruct (toggle_off _ _ T) as [A1 A2]. split; [exact A1|]. intros _. rewrite <- Nat.negb_odd.
      match goal with |- context [Nat.odd ?x] => destruct (Nat.odd x) eqn:O end; [|reflexivity]. destruct A2 as [A2 _]. by destruct (A2 eq_refl).
    + rewrite app_nil_r. destruct T as [A1 A2]. split; [exact A1|]. intros _. rewrite <- Nat.negb_odd.
      match goal with |- context [Nat.odd ?x] => destruct (Nat.odd x) eqn:O end; [|reflexivity]. destruct A2 as [A2 _]. by destruct (A2 eq_refl).
Qed.
End Runs.
