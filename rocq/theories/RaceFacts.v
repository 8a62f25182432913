(** The goroutines of the saver package do not get in each other's way. *)
From stdpp Require Import gmap.
From Coq Require Import NArith ZArith Lia.
From Verif Require Import GoBase GoBaseFacts GoTime Inetdiag Netlink SpecNetlink SpecCompare RecordFacts CompareFacts
  Cache SpecCache CacheFacts Saver SpecSaver SpecSystem SaverSteps SaverFiles SaverJobs SaverBlocks SaverRuns
  System SystemViews SystemJobs SystemInv SystemFiles SystemRefine SystemEnd SpecRaces.

(** ** What a marshaller's step does *)
Inductive eff := ENone | EHeap (u : nat) (raw : bytes) | EWrite (wr : nat) (b : bytes) | EClose (wr : nat) | EWg.
Definition apply_eff (e : eff) (y : sys) : sys :=
  match e with
  | ENone => y
  | EHeap u raw => with_heap (<[u := raw]> (y_heap y)) y
  | EWrite wr b => with_files (write wr b (y_files y)) y
  | EClose wr => with_files (close_file wr (y_files y)) y
  | EWg => with_wg (Nat.pred (y_wg y)) y
  end.
Definition header_now (h : gmap nat bytes) (c : cell) : bytes := match ar_raw (current h c) with Some b => b | None => [] end.

Section Reads.
Variables (w : world) (cf : config).
(** ** What the saver reads of records that marshallers may be changing *)
Lemma but_attrs r r' : but_addresses r r' -> has_diag_info r' = has_diag_info r /\ get_stats r' = get_stats r.
Proof. intros (_ & E & _). unfold has_diag_info, get_stats. by rewrite E. Qed.
Lemma but_sees r r' : but_addresses r r' -> sees r r'.
Proof.
  intros (E1 & E2 & E3 & E4). split; [exact E1|]. split; [exact E3|]. split; [|exact E4]. rewrite E2.
  destruct (sees_refl r) as (_ & _ & S & _). exact S.
Qed.
Lemma but_refl r : but_addresses r r.
Proof. unfold but_addresses. destruct (ar_raw r); repeat split. Qed.
Lemma but_compare new r r' : but_addresses r r' -> compare new (Some r') = compare new (Some r).
Proof.
  intros H. destruct (sees_header _ _ (but_sees _ _ H)) as [L St]. destruct H as (_ & E & _ & _).
  destruct (le_lt_dec 72 (length (header r))) as [Lr|Lr].
  - destruct (le_lt_dec 72 (length (header new))) as [Ln|Ln].
    + rewrite !compare_unfold by lia. rewrite St, E. reflexivity.
    + rewrite !compare_short by (right; lia). reflexivity.
  - rewrite !compare_short by (left; lia). reflexivity.
Qed.
Lemma swap_blind v v' pm s : (forall k c, prev (s_cache s) !! k = Some c -> but_addresses (v c) (v' c)) ->
  swap_and_queue w cf v' pm s = swap_and_queue w cf v pm s.
Proof.
  intros Hv. unfold swap_and_queue. destruct (update (s_cache (inc_total s)) pm) as [o c] eqn:E.
  destruct o as [[oldc|]|e| |]; try reflexivity.
  assert (Hs : but_addresses (v oldc) (v' oldc)).
  { unfold update in E. destruct (record_cookie (c_ar pm)) as [k|e| |]; try discriminate E.
    change (s_cache (inc_total s)) with (s_cache s) in E.
    destruct (prev (s_cache s) !! k) eqn:Ek; [|discriminate E]. injection E as -> _. exact (Hv k oldc Ek). }
  destruct (but_attrs _ _ Hs) as [E1 E2]. rewrite E1, E2, (but_compare _ _ _ Hs). reflexivity.
Qed.
Lemma job_blind v v' j s : (forall k c, prev (s_cache s) !! k = Some c -> but_addresses (v c) (v' c)) ->
  (forall k c, j = JClose (k, c) -> but_addresses (v c) (v' c)) -> run_job w cf v' j s = run_job w cf v j s.
Proof.
  intros H1 H2. destruct j as [b|t m|t|[k c]|t| |k|]; cbn [run_job]; try reflexivity.
  - f_equal. unfold handle_msg. destruct (s_dead s); [reflexivity|]. destruct m as [msg|]; [|reflexivity].
    destruct (make_archival_record msg (excl cf)) as [[ar|]|e| |]; try reflexivity. apply swap_blind. exact H1.
  - f_equal. unfold close_one. destruct (s_dead s); [reflexivity|]. destruct (but_attrs _ _ (H2 k c eq_refl)) as [-> ->]. reflexivity.
Qed.

End Reads.

Section Races.
Variables (w : world) (cf : config) (cap : nat) (anon : bytes -> bytes) (line : archival -> bytes) (hline : metadata -> bytes).
Hypothesis Hlen : forall x, length (anon x) = length x.
Hypothesis Hn : 1 <= nmarsh cf.
Variable bs : list block.
Notation step := (step w cf cap anon line hline).
Notation reachable := (reachable w cf cap anon line hline bs).

Inductive does (h : gmap nat bytes) (m : marsh) : phase -> list task -> eff -> Prop :=
| d_take t ts : m_phase m = Idle -> m_chan m = t :: ts -> does h m (Holding t) ts ENone
| d_finish : m_phase m = Idle -> m_chan m = [] -> m_closed m = true -> does h m Finished [] EWg
| d_close wr : m_phase m = Holding (None, wr) -> does h m Idle (m_chan m) (EClose wr)
| d_anon c wr raw : m_phase m = Holding (Some c, wr) -> anonymize anon (header_now h c) = Ret raw ->
    does h m (Anonymized c wr) (m_chan m) (EHeap (c_uid c) raw)
| d_skip c wr e : m_phase m = Holding (Some c, wr) -> anonymize anon (header_now h c) = Fail e -> does h m Idle (m_chan m) ENone
| d_render c wr : m_phase m = Anonymized c wr -> does h m (Rendered c (line (current h c)) wr) (m_chan m) ENone
| d_write c b wr : m_phase m = Rendered c b wr -> does h m (Newline c wr) (m_chan m) (EWrite wr b)
| d_newline c wr : m_phase m = Newline c wr -> does h m Idle (m_chan m) (EWrite wr nl).

Definition result (q : nat) (m : marsh) (p : phase) (ts : list task) (e : eff) (y : sys) : sys :=
  apply_eff e (with_marsh q (mkmarsh ts (m_closed m) p) y).

Lemma does_phase h m p ts e : does h m p ts e -> p <> m_phase m.
Proof. intros D E. destruct D; congruence. Qed.

Lemma does_step y q m p ts e : alive y -> y_marsh y !! q = Some m -> does (y_heap y) m p ts e -> (e = EWg -> y_wg y <> 0) ->
  step y (result q m p ts e y).
Proof.
  intros A M D Wg. destruct D as [t ts P C|P C Cl|wr P|c wr raw P An|c wr e P An|c wr P|c b wr P|c wr P].
  - by apply st_take.
  - specialize (Wg eq_refl). pose proof (st_finish w cf cap anon line hline y q m A M P C Cl) as St.
    destruct (y_wg y) as [|n] eqn:E; [done|]. unfold goes_to in St. rewrite C in St. unfold result, apply_eff. cbn [with_marsh y_wg].
    rewrite E. exact St.
  - exact (st_close w cf cap anon line hline y q m wr A M P).
  - exact (st_anon w cf cap anon line hline y q m c wr raw A M P An).
  - exact (st_skip w cf cap anon line hline y q m c wr e A M P An).
  - exact (st_render w cf cap anon line hline y q m c wr A M P).
  - exact (st_write w cf cap anon line hline y q m c b wr A M P).
  - exact (st_newline w cf cap anon line hline y q m c wr A M P).
Qed.

Lemma step_cases y y' : step y y' ->
  alive y /\
  ((exists j js view, y_pc y = length (s_log (y_saver y)) /\ y_jobs y = j :: js /\ (forall c, sees (current (y_heap y) c) (view c)) /\
      y' = with_saver (run_job w cf view j (y_saver y)).1 ((run_job w cf view j (y_saver y)).2 ++ js) y) \/
   (exists a ya, s_log (y_saver y) !! y_pc y = Some a /\ exec cap hline a y = Some ya /\ y' = with_pc (S (y_pc y)) ya) \/
   (exists q m p ts e, y_marsh y !! q = Some m /\ does (y_heap y) m p ts e /\
      ((e = EWg /\ y_wg y = 0 /\ y' = panicked y) \/ ((e = EWg -> y_wg y <> 0) /\ y' = result q m p ts e y)))).
Proof using.
  clear Hlen Hn.
  intros H. destruct H as [y j js view A Pc J V|y a y' A L E|y q m t ts A M Ph C|y q m A M Ph C Cl|y q m wr A M Ph|y q m c wr raw A M Ph R
    |y q m c wr e A M Ph R|y q m c wr A M Ph|y q m c b wr A M Ph|y q m c wr A M Ph]; (split; [exact A|]).
  - left. by exists j, js, view.
  - right; left. by exists a, y'.
  - right; right. exists q, m, (Holding t), ts, ENone. split; [exact M|]. split; [by apply d_take|]. right. by split.
  - right; right. exists q, m, Finished, [], EWg. split; [exact M|]. split; [by apply d_finish|].
    destruct (y_wg y) as [|n] eqn:E; [left; done|right]. split; [done|]. unfold result, apply_eff, goes_to. rewrite C. cbn [with_marsh y_wg].
    rewrite E. reflexivity.
  - right; right. exists q, m, Idle, (m_chan m), (EClose wr). split; [exact M|]. split; [by apply d_close|]. right. by split.
  - right; right. exists q, m, (Anonymized c wr), (m_chan m), (EHeap (c_uid c) raw). split; [exact M|]. split; [by apply d_anon|]. right. by split.
  - right; right. exists q, m, Idle, (m_chan m), ENone. split; [exact M|]. split; [by eapply d_skip|]. right. by split.
  - right; right. exists q, m, (Rendered c (line (current (y_heap y) c)) wr), (m_chan m), ENone. split; [exact M|]. split; [by apply d_render|]. right. by split.
  - right; right. exists q, m, (Newline c wr), (m_chan m), (EWrite wr b). split; [exact M|]. split; [by apply d_write|]. right. by split.
  - right; right. exists q, m, Idle, (m_chan m), (EWrite wr nl). split; [exact M|]. split; [by eapply d_newline|]. right. by split.
Qed.

Lemma result_fields q m p ts e y : y_saver (result q m p ts e y) = y_saver y /\ y_jobs (result q m p ts e y) = y_jobs y /\
  y_pc (result q m p ts e y) = y_pc y /\ y_panic (result q m p ts e y) = y_panic y /\
  y_marsh (result q m p ts e y) = <[q := mkmarsh ts (m_closed m) p]> (y_marsh y).
Proof. unfold result. destruct e; cbn; by repeat split. Qed.
Lemma result_alive q m p ts e y : alive y -> alive (result q m p ts e y).
Proof. unfold alive. destruct (result_fields q m p ts e y) as (-> & _ & -> & -> & _). done. Qed.
Lemma result_moved q m p ts e y h : y_marsh y !! q = Some m -> does h m p ts e -> moved (Marshaller q) y (result q m p ts e y).
Proof.
  intros M D. unfold moved, phase_of. destruct (result_fields q m p ts e y) as (_ & -> & -> & _ & ->). split; [done|]. split; [done|].
  rewrite list_lookup_insert by (by eapply lookup_lt_Some). rewrite M. cbn. intros [= E]. by apply (does_phase _ _ _ _ _ D).
Qed.
Lemma result_other q q' m p ts e y : q <> q' -> phase_of q' (result q m p ts e y) = phase_of q' y.
Proof.
  intros N. unfold phase_of. destruct (result_fields q m p ts e y) as (_ & _ & _ & _ & ->). by rewrite list_lookup_insert_ne.
Qed.

Lemma by_marsh q y y' : step y y' -> y_panic y' = false -> moved (Marshaller q) y y' ->
  alive y /\ exists m p ts e, y_marsh y !! q = Some m /\ does (y_heap y) m p ts e /\ (e = EWg -> y_wg y <> 0) /\ y' = result q m p ts e y.
Proof using.
  clear Hlen Hn.
  intros St Pn (M1 & M2 & M3). destruct (step_cases _ _ St) as (A & [(j & js & view & Pc & J & V & ->)|[(a & ya & L & E & ->)|(q0 & m & p & ts & e & M & D & R)]]); split; try exact A.
  - exfalso. apply M3. reflexivity.
  - exfalso. cbn [y_pc with_pc] in M1. lia.
  - destruct R as [(_ & _ & ->)|(Wg & ->)]; [discriminate Pn|]. destruct (decide (q0 = q)) as [->|N].
    + by exists m, p, ts, e.
    + exfalso. apply M3. by apply result_other.
Qed.
Lemma by_saver y y' : step y y' -> moved TheSaver y y' ->
  alive y /\
  ((exists j js view, y_pc y = length (s_log (y_saver y)) /\ y_jobs y = j :: js /\ (forall c, sees (current (y_heap y) c) (view c)) /\
      y' = with_saver (run_job w cf view j (y_saver y)).1 ((run_job w cf view j (y_saver y)).2 ++ js) y) \/
   (exists a ya, s_log (y_saver y) !! y_pc y = Some a /\ exec cap hline a y = Some ya /\ y' = with_pc (S (y_pc y)) ya)).
Proof using.
  clear Hlen Hn.
  intros St Mv. destruct (step_cases _ _ St) as (A & [H|[H|(q0 & m & p & ts & e & M & D & R)]]); split; try exact A; [by left|by right|].
  exfalso. destruct R as [(_ & _ & ->)|(_ & ->)]; unfold moved in Mv.
  - cbn in Mv. destruct Mv as [Mv|Mv]; by apply Mv.
  - destruct (result_fields q0 m p ts e y) as (_ & E1 & E2 & _). rewrite E1, E2 in Mv. destruct Mv as [Mv|Mv]; by apply Mv.
Qed.

(** ** Whose is what *)
Lemma has_task_pending q t y : has_task q t y <-> exists m, y_marsh y !! q = Some m /\ t ∈ pending m.
Proof.
  unfold has_task, pending. split; intros (m & M & H); exists m; (split; [exact M|]); rewrite elem_of_app in *.
  - destruct H as [H|H]; [by right|]. left. destruct (m_phase m); try contradiction; subst t; cbn; by left.
  - destruct H as [H|H]; [|by left]. right. destruct (m_phase m); cbn in H; try (by apply elem_of_nil in H); apply elem_of_list_singleton in H; done.
Qed.
Lemma one_owner y q q' t t' : reachable y -> has_task q t y -> has_task q' t' y -> t.2 = t'.2 -> q = q'.
Proof using Hlen Hn.
  intros R H H' E. destruct (all_invariants w cf cap anon line hline Hlen Hn bs y R) as (I1 & I2 & (P & _) & _).
  apply has_task_pending in H as (m & M & T), H' as (m' & M' & T').
  apply (pending_in_log cf anon line y q m t I2 P M), sends_in in T. apply (pending_in_log cf anon line y q' m' t' I2 P M'), sends_in in T'.
  destruct I1 as (Rs & _). destruct (owner_exists w cf anon hline Hlen Hn (y_saver y) t.2 Rs) as (q0 & _ & Ho). destruct (executed_log y) as [e El].
  transitivity q0; [apply (Ho q t.1)|symmetry; apply (Ho q' t'.1)]; rewrite El; apply elem_of_app; left; [exact T|rewrite E; exact T'].
Qed.
Lemma one_record y q q' c c' wr wr' : reachable y -> has_task q (Some c, wr) y -> has_task q' (Some c', wr') y -> c_uid c = c_uid c' -> q = q'.
Proof using Hlen Hn.
  intros R H H' E. destruct (all_invariants w cf cap anon line hline Hlen Hn bs y R) as (I1 & I2 & (P & _) & _).
  apply has_task_pending in H as (m & M & T), H' as (m' & M' & T').
  apply (pending_in_log cf anon line y q m _ I2 P M) in T. apply (pending_in_log cf anon line y q' m' _ I2 P M') in T'.
  destruct (executed_nodup w cf y I1) as [_ N]. by eapply sends_apart.
Qed.
Lemma not_the_new_one y q c wr : reachable y -> has_task q (Some c, wr) y -> c_uid c < p_uid (s_pos (y_saver y)).
Proof using Hlen Hn.
  intros R H. destruct (all_invariants w cf cap anon line hline Hlen Hn bs y R) as (I1 & I2 & (P & _) & _).
  apply has_task_pending in H as (m & M & T). apply (pending_in_log cf anon line y q m _ I2 P M), sends_sent in T.
  destruct I1 as (_ & _ & own & _ & _ & K3 & K4 & _). eapply K4, K3. destruct (executed_log y) as [e ->]. rewrite sent_app. apply elem_of_app. by left.
Qed.
(** The saver makes a writer and writes its first line before anyone else has it. *)
Lemma writer_is_new y wr q t : reachable y -> on_writer TheSaver wr y -> has_task q t y -> t.2 <> wr.
Proof using Hlen Hn.
  intros R (a & L & H) T <-. destruct (all_invariants w cf cap anon line hline Hlen Hn bs y R) as (I1 & I2 & (P & _) & _).
  apply has_task_pending in T as (m & M & T). apply (pending_in_log cf anon line y q m _ I2 P M), sends_in in T.
  pose proof (take_drop_middle _ _ _ L) as E. symmetry in E. destruct I1 as (Rs & _).
  eapply (no_sends_before w cf (y_saver y)); [exact Rs|exact E| | |exact T].
  - destruct H as [(path & ->)|(md & ->)]; reflexivity.
  - destruct H as [(path & ->)|(md & ->)]; cbn; apply Nat.eqb_refl.
Qed.

(** ** Steps of two marshallers *)
Lemma does_heap h h' m p ts e : does h m p ts e -> (forall c wr, (Some c, wr) ∈ inflight (m_phase m) -> h' !! c_uid c = h !! c_uid c) -> does h' m p ts e.
Proof.
  assert (Cu : forall c, h' !! c_uid c = h !! c_uid c -> current h' c = current h c) by (intros c E; unfold current; by rewrite E).
  intros D G. destruct D as [t ts P C|P C Cl|wr P|c wr raw P An|c wr e P An|c wr P|c b wr P|c wr P].
  - by apply d_take.
  - by apply d_finish.
  - by apply d_close.
  - apply d_anon; [exact P|]. unfold header_now. rewrite Cu; [exact An|]. apply (G c wr). rewrite P. by left.
  - eapply d_skip; [exact P|]. unfold header_now. rewrite Cu; [exact An|]. apply (G c wr). rewrite P. by left.
  - rewrite <- Cu; [by apply d_render|]. apply (G c wr). rewrite P. by left.
  - by apply d_write.
  - by eapply d_newline.
Qed.
(** What an effect is on belongs to the task at hand. *)
Lemma does_place h m p ts e : does h m p ts e ->
  match e with
  | EHeap u _ => exists c wr, (Some c, wr) ∈ inflight (m_phase m) /\ c_uid c = u
  | EWrite wr _ | EClose wr => exists t, t ∈ inflight (m_phase m) /\ t.2 = wr
  | _ => True
  end.
Proof.
  intros D. destruct D as [t ts P C|P C Cl|wr P|c wr raw P An|c wr e P An|c wr P|c b wr P|c wr P]; try exact I; rewrite P; cbn [inflight].
  - exists (None, wr). by split; [left|].
  - exists c, wr. by split; [left|].
  - exists (Some c, wr). by split; [left|].
  - exists (Some c, wr). by split; [left|].
Qed.
Lemma inflight_task y q m t : y_marsh y !! q = Some m -> t ∈ inflight (m_phase m) -> has_task q t y.
Proof. intros M T. apply has_task_pending. exists m. split; [exact M|]. unfold pending. apply elem_of_app. by left. Qed.

(** The change of one file. *)
Definition at_file (wr : nat) (g : option file -> option file) (F : gmap nat file -> gmap nat file) : Prop :=
  forall fs k, F fs !! k = if decide (k = wr) then g (fs !! wr) else fs !! k.
Lemma at_file_write wr b : at_file wr (put b) (write wr b).
Proof. intros fs k. destruct (decide (k = wr)) as [->|N]; [apply write_same|by apply write_other]. Qed.
Lemma at_file_close wr : at_file wr shut (close_file wr).
Proof. intros fs k. destruct (decide (k = wr)) as [->|N]; [apply close_same|by apply close_other]. Qed.
Lemma at_file_comm wr wr' g g' F F' fs : wr <> wr' -> at_file wr g F -> at_file wr' g' F' -> F (F' fs) = F' (F fs).
Proof.
  intros N A A'. apply map_eq. intros k. rewrite (A (F' fs)), (A' (F fs)), !A, !A'.
  repeat destruct (decide _); congruence.
Qed.

Lemma eff_comm e1 e2 q1 q2 m1 m2 y : q1 <> q2 ->
  match e1, e2 with
  | EHeap u _, EHeap u' _ => u <> u'
  | (EWrite wr _ | EClose wr), (EWrite wr' _ | EClose wr') => wr <> wr'
  | _, _ => True
  end ->
  apply_eff e1 (with_marsh q1 m1 (apply_eff e2 (with_marsh q2 m2 y))) = apply_eff e2 (with_marsh q2 m2 (apply_eff e1 (with_marsh q1 m1 y))).
Proof.
  intros N P. assert (Em : <[q1 := m1]> (<[q2 := m2]> (y_marsh y)) = <[q2 := m2]> (<[q1 := m1]> (y_marsh y))) by (by apply list_insert_commute).
  destruct e1 as [|u raw|wr b|wr|], e2 as [|u' raw'|wr' b'|wr'|]; unfold apply_eff, with_marsh, with_heap, with_files, with_wg; cbn; rewrite Em; try reflexivity; f_equal.
  - by apply insert_commute.
  - by apply (at_file_comm wr wr' (put b) (put b')); [|apply at_file_write|apply at_file_write].
  - by apply (at_file_comm wr wr' (put b) shut); [|apply at_file_write|apply at_file_close].
  - by apply (at_file_comm wr wr' shut (put b')); [|apply at_file_close|apply at_file_write].
  - by apply (at_file_comm wr wr' shut shut); [|apply at_file_close|apply at_file_close].
Qed.
Lemma two_running y q1 q2 m1 m2 : q1 <> q2 -> y_marsh y !! q1 = Some m1 -> y_marsh y !! q2 = Some m2 ->
  running m1 = true -> running m2 = true -> inv3 cf y -> 2 <= y_wg y.
Proof.
  intros N M1 M2 R1 R2 (_ & _ & _ & W). rewrite W.
  pose proof (count_running_insert cf cap Hn (y_marsh y) q1 m1 (mkmarsh [] true Finished) M1) as C1. rewrite R1 in C1. cbn [running m_phase] in C1.
  assert (M2' : <[q1 := mkmarsh [] true Finished]> (y_marsh y) !! q2 = Some m2) by (by rewrite list_lookup_insert_ne).
  pose proof (count_running_insert cf cap Hn _ q2 m2 (mkmarsh [] true Finished) M2') as C2. rewrite R2 in C2. cbn [running m_phase] in C2. lia.
Qed.
Lemma does_running h m p ts e : does h m p ts e -> running m = true.
Proof. intros D. unfold running. destruct D as [t ts P C|P C Cl|wr P|c wr raw P An|c wr e P An|c wr P|c b wr P|c wr P]; by rewrite P. Qed.

Lemma marshallers_commute y y1 y2 q1 q2 : reachable y -> q1 <> q2 -> step y y1 -> step y y2 -> y_panic y1 = false -> y_panic y2 = false ->
  moved (Marshaller q1) y y1 -> moved (Marshaller q2) y y2 ->
  exists y3, step y1 y3 /\ moved (Marshaller q2) y1 y3 /\ step y2 y3 /\ moved (Marshaller q1) y2 y3.
Proof using Hlen Hn.
  intros R N S1 S2 P1 P2 V1 V2. destruct (all_invariants w cf cap anon line hline Hlen Hn bs y R) as (_ & _ & I3 & _).
  destruct (by_marsh q1 y y1 S1 P1 V1) as (A & m1 & p1 & ts1 & e1 & M1 & D1 & W1 & ->).
  destruct (by_marsh q2 y y2 S2 P2 V2) as (_ & m2 & p2 & ts2 & e2 & M2 & D2 & W2 & ->). clear S1 S2 V1 V2.
  pose proof (two_running y q1 q2 m1 m2 N M1 M2 (does_running _ _ _ _ _ D1) (does_running _ _ _ _ _ D2) I3) as Wg.
  assert (Ap : forall t1 t2, t1 ∈ inflight (m_phase m1) -> t2 ∈ inflight (m_phase m2) -> t1.2 <> t2.2).
  { intros t1 t2 H1 H2 E. apply N. eapply (one_owner y q1 q2 t1 t2 R); [by eapply inflight_task|by eapply inflight_task|exact E]. }
  assert (Au : forall c1 wr1 c2 wr2, (Some c1, wr1) ∈ inflight (m_phase m1) -> (Some c2, wr2) ∈ inflight (m_phase m2) -> c_uid c1 <> c_uid c2).
  { intros c1 wr1 c2 wr2 H1 H2 E. apply N. eapply (one_record y q1 q2 c1 c2 wr1 wr2 R); [by eapply inflight_task|by eapply inflight_task|exact E]. }
  pose proof (does_place _ _ _ _ _ D1) as L1. pose proof (does_place _ _ _ _ _ D2) as L2.
  destruct (result_fields q1 m1 p1 ts1 e1 y) as (_ & _ & _ & _ & F1). destruct (result_fields q2 m2 p2 ts2 e2 y) as (_ & _ & _ & _ & F2).
  assert (M2' : y_marsh (result q1 m1 p1 ts1 e1 y) !! q2 = Some m2) by (by rewrite F1, list_lookup_insert_ne).
  assert (M1' : y_marsh (result q2 m2 p2 ts2 e2 y) !! q1 = Some m1) by (by rewrite F2, list_lookup_insert_ne).
  assert (D2' : does (y_heap (result q1 m1 p1 ts1 e1 y)) m2 p2 ts2 e2).
  { eapply does_heap; [exact D2|]. intros c wr Hc. unfold result, apply_eff. destruct e1 as [|u raw| | |]; cbn; try reflexivity.
    destruct L1 as (c1 & wr1 & H1 & <-). apply lookup_insert_ne. by eapply Au. }
  assert (D1' : does (y_heap (result q2 m2 p2 ts2 e2 y)) m1 p1 ts1 e1).
  { eapply does_heap; [exact D1|]. intros c wr Hc. unfold result, apply_eff. destruct e2 as [|u raw| | |]; cbn; try reflexivity.
    destruct L2 as (c2 & wr2 & H2 & <-). apply lookup_insert_ne. intros E. symmetry in E. by eapply (Au c wr c2 wr2). }
  exists (result q2 m2 p2 ts2 e2 (result q1 m1 p1 ts1 e1 y)).
  assert (X : result q2 m2 p2 ts2 e2 (result q1 m1 p1 ts1 e1 y) = result q1 m1 p1 ts1 e1 (result q2 m2 p2 ts2 e2 y)).
  { unfold result. apply eff_comm; [done|]. destruct e2 as [|u' raw'|wr' b'|wr'|], e1 as [|u raw|wr b|wr|]; try exact I;
      repeat match goal with H : exists _, _ |- _ => destruct H end; repeat match goal with H : _ /\ _ |- _ => destruct H end; subst.
    1: intros E; symmetry in E; by eapply Au. all: intros E; symmetry in E; by eapply Ap. }
  assert (G : forall q m p ts e, y_wg (result q m p ts e y) <> 0).
  { intros q m p ts e. unfold result, apply_eff. destruct e; cbn; lia. }
  split; [apply does_step; [by apply result_alive|exact M2'|exact D2'|intros _; apply G]|].
  split; [by eapply result_moved|]. rewrite X.
  split; [apply does_step; [by apply result_alive|exact M1'|exact D1'|intros _; apply G]|]. by eapply result_moved.
Qed.

(** ** A step of the saver and one of a marshaller *)
Lemma does_more h m p ts e x : does h m p ts e -> e <> EWg ->
  does h (mkmarsh (m_chan m ++ [x]) (m_closed m) (m_phase m)) p (ts ++ [x]) e /\ length ts <= length (m_chan m).
Proof.
  intros D N. destruct D as [t ts P C|P C Cl|wr P|c wr raw P An|c wr e P An|c wr P|c b wr P|c wr P].
  2: destruct (N eq_refl).
  all: (split; [|first [rewrite C; cbn [length]; lia|lia]]).
  - apply d_take; [exact P|]. cbn [m_chan]. by rewrite C.
  - exact (d_close h (mkmarsh _ _ _) wr P).
  - exact (d_anon h (mkmarsh _ _ _) c wr raw P An).
  - exact (d_skip h (mkmarsh _ _ _) c wr e P An).
  - exact (d_render h (mkmarsh _ _ _) c wr P).
  - exact (d_write h (mkmarsh _ _ _) c b wr P).
  - exact (d_newline h (mkmarsh _ _ _) c wr P).
Qed.
Lemma does_closed h m p ts e : does h m p ts e -> does h (mkmarsh (m_chan m) true (m_phase m)) p ts e.
Proof.
  intros D. destruct D as [t ts P C|P C Cl|wr P|c wr raw P An|c wr e P An|c wr P|c b wr P|c wr P].
  - exact (d_take h (mkmarsh _ _ _) t ts P C).
  - exact (d_finish h (mkmarsh _ _ _) P C eq_refl).
  - exact (d_close h (mkmarsh _ _ _) wr P).
  - exact (d_anon h (mkmarsh _ _ _) c wr raw P An).
  - exact (d_skip h (mkmarsh _ _ _) c wr e P An).
  - exact (d_render h (mkmarsh _ _ _) c wr P).
  - exact (d_write h (mkmarsh _ _ _) c b wr P).
  - exact (d_newline h (mkmarsh _ _ _) c wr P).
Qed.
(** An effect does not look at the marshallers. *)
Lemma eff_marsh e q m y : apply_eff e (with_marsh q m y) = with_marsh q m (apply_eff e y).
Proof. destruct e; reflexivity. Qed.
Lemma marsh_marsh q q' m m' y : q <> q' -> with_marsh q m (with_marsh q' m' y) = with_marsh q' m' (with_marsh q m y).
Proof. intros N. unfold with_marsh. cbn. by rewrite list_insert_commute. Qed.
Lemma marsh_twice q m m' y : with_marsh q m (with_marsh q m' y) = with_marsh q m y.
Proof. unfold with_marsh. cbn. by rewrite list_insert_insert. Qed.

Lemma act_commutes y q m p ts e a ya : y_marsh y !! q = Some m -> does (y_heap y) m p ts e -> exec cap hline a y = Some ya -> y_panic ya = false ->
  (forall wr, starts a = true -> about wr a = true -> match e with EWrite wr' _ | EClose wr' => wr' <> wr | _ => True end) ->
  (a = ADone -> e = EWg -> 2 <= y_wg y) ->
  exists m' ts', y_marsh ya !! q = Some m' /\ does (y_heap ya) m' p ts' e /\
    exec cap hline a (result q m p ts e y) = Some (result q m' p ts' e ya).
Proof.
  intros M D E P Hf Hd.
  assert (Ql : q < length (y_marsh y)) by (by eapply lookup_lt_Some).
  assert (Ql' : forall x, <[q := x]> (y_marsh y) !! q = Some x) by (intros x; by apply list_lookup_insert).
  destruct a as [| | | |wr path| |wr md| |q0 msg wr| | | | | | |q0|];
    try (injection E as <-; exists m, ts; split; [exact M|]; split; [exact D|reflexivity]).
  - (* ACreate *) injection E as <-. exists m, ts. split; [exact M|]. split; [exact D|]. cbn [exec]. f_equal.
    specialize (Hf wr eq_refl ltac:(cbn; apply Nat.eqb_refl)). unfold result, apply_eff. destruct e as [|u raw|wr' b|wr'|]; try reflexivity;
      unfold with_files, with_marsh; cbn; f_equal.
    + symmetry. apply (at_file_comm wr' wr (put b) (fun _ => Some (mkfile path [] true)) (write wr' b) (fun fs => <[wr := mkfile path [] true]> fs)); [done|apply at_file_write|].
      intros fs k. destruct (decide (k = wr)) as [->|Nk]; [by rewrite lookup_insert|by rewrite lookup_insert_ne].
    + symmetry. apply (at_file_comm wr' wr shut (fun _ => Some (mkfile path [] true)) (close_file wr') (fun fs => <[wr := mkfile path [] true]> fs)); [done|apply at_file_close|].
      intros fs k. destruct (decide (k = wr)) as [->|Nk]; [by rewrite lookup_insert|by rewrite lookup_insert_ne].
  - (* AHeader *) injection E as <-. exists m, ts. split; [exact M|]. split; [exact D|]. cbn [exec]. f_equal.
    specialize (Hf wr eq_refl ltac:(cbn; apply Nat.eqb_refl)).
    assert (At : at_file wr (fun o => put nl (put (hline md) o)) (fun fs => write wr nl (write wr (hline md) fs))).
    { intros fs k. rewrite (at_file_write wr nl), !(at_file_write wr (hline md)). destruct (decide (k = wr)), (decide (wr = wr)); congruence. }
    unfold result, apply_eff. destruct e as [|u raw|wr' b|wr'|]; try reflexivity; unfold with_files, with_marsh; cbn; f_equal.
    + symmetry. exact (at_file_comm wr' wr (put b) _ (write wr' b) _ (y_files y) Hf (at_file_write wr' b) At).
    + symmetry. exact (at_file_comm wr' wr shut _ (close_file wr') _ (y_files y) Hf (at_file_close wr') At).
  - (* ASend *) cbn [exec] in E |- *. destruct (y_marsh y !! q0) as [m0|] eqn:M0; [|injection E as <-; discriminate P].
    destruct (m_closed m0) eqn:C0; [injection E as <-; discriminate P|].
    destruct (Nat.ltb_spec (length (m_chan m0)) cap) as [L|L]; [|discriminate E]. injection E as <-.
    destruct (result_fields q m p ts e y) as (_ & _ & _ & _ & F). rewrite F. destruct (decide (q = q0)) as [<-|N].
    + rewrite M in M0. injection M0 as <-. rewrite Ql'. cbn [m_closed m_chan m_phase]. rewrite C0.
      assert (Ne : e <> EWg). { intros ->. inversion D; congruence. }
      destruct (does_more _ _ _ _ _ (msg, wr) D Ne) as (D' & Lt). rewrite C0 in D'.
      destruct (Nat.ltb_spec (length ts) cap) as [L'|L']; [|lia].
      exists (mkmarsh (m_chan m ++ [(msg, wr)]) false (m_phase m)), (ts ++ [(msg, wr)]). split; [apply Ql'|]. split; [exact D'|].
      f_equal. unfold result. cbn [m_closed]. rewrite C0, !eff_marsh, !marsh_twice. reflexivity.
    + rewrite list_lookup_insert_ne by done. rewrite M0, C0. destruct (Nat.ltb_spec (length (m_chan m0)) cap) as [_|L']; [|lia].
      exists m, ts. split; [cbn; by rewrite list_lookup_insert_ne|]. split; [exact D|]. f_equal. unfold result. rewrite !eff_marsh. by apply marsh_marsh.
  - (* ACloseChan *) cbn [exec] in E |- *. destruct (y_marsh y !! q0) as [m0|] eqn:M0; [|injection E as <-; discriminate P].
    destruct (m_closed m0) eqn:C0; [injection E as <-; discriminate P|]. injection E as <-.
    destruct (result_fields q m p ts e y) as (_ & _ & _ & _ & F). rewrite F. destruct (decide (q = q0)) as [<-|N].
    + rewrite M in M0. injection M0 as <-. rewrite Ql'. cbn [m_closed m_chan m_phase]. rewrite C0.
      exists (mkmarsh (m_chan m) true (m_phase m)), ts. split; [apply Ql'|]. split; [by apply does_closed|].
      f_equal. unfold result. cbn [m_closed]. rewrite !eff_marsh, !marsh_twice. reflexivity.
    + rewrite list_lookup_insert_ne by done. rewrite M0, C0.
      exists m, ts. split; [cbn; by rewrite list_lookup_insert_ne|]. split; [exact D|]. f_equal. unfold result. rewrite !eff_marsh. by apply marsh_marsh.
  - (* ADone *) cbn [exec] in E |- *. destruct (y_wg y) as [|n] eqn:W; [injection E as <-; discriminate P|]. injection E as <-.
    exists m, ts. split; [exact M|]. split; [exact D|]. unfold result. destruct e as [|u raw|wr' b|wr'|]; cbn [apply_eff y_wg with_marsh with_heap with_files with_wg]; rewrite ?W; try reflexivity.
    specialize (Hd eq_refl eq_refl). destruct n as [|n]; [lia|]. reflexivity.
Qed.

Lemma job_commutes y q m p ts e j js view : reachable y -> alive y -> y_marsh y !! q = Some m -> does (y_heap y) m p ts e ->
  y_pc y = length (s_log (y_saver y)) -> y_jobs y = j :: js -> (forall c, sees (current (y_heap y) c) (view c)) ->
  exists view', (forall c, sees (current (y_heap (result q m p ts e y)) c) (view' c)) /\
    run_job w cf view' j (y_saver y) = run_job w cf view j (y_saver y).
Proof using Hlen Hn.
  intros R A M D Pc J V.
  destruct (match e with EHeap _ _ => true | _ => false end) eqn:Ee.
  2:{ exists view. split; [|reflexivity]. intros c. unfold result, apply_eff. destruct e; try discriminate Ee; exact (V c). }
  destruct e as [|u raw| | |]; try discriminate Ee. clear Ee.
  assert (exists c0 wr0, m_phase m = Holding (Some c0, wr0) /\ u = c_uid c0 /\ anonymize anon (header_now (y_heap y) c0) = Ret raw) as (c0 & wr0 & Ph & -> & An).
  { inversion D; subst. eexists _, _. split; [eassumption|]. split; [reflexivity|assumption]. }
  set (patch := fun r => mkar (ar_time r) (Some raw) (ar_attrs r) (ar_meta r)).
  exists (fun c => if decide (c_uid c = c_uid c0) then patch (view c) else view c). split.
  - intros c. unfold result, apply_eff, current. cbn [y_heap with_heap with_marsh]. destruct (decide (c_uid c = c_uid c0)) as [E|N].
    + rewrite E, lookup_insert. destruct (V c) as (V1 & V2 & V3 & _). unfold patch.
      assert (Cu : ar_time (current (y_heap y) c) = ar_time (c_ar c) /\ ar_attrs (current (y_heap y) c) = ar_attrs (c_ar c) /\ ar_meta (current (y_heap y) c) = ar_meta (c_ar c)).
      { unfold current. destruct (y_heap y !! c_uid c); by repeat split. }
      destruct Cu as (C1 & C2 & C3). rewrite C1 in V1. rewrite C2 in V3. rewrite C3 in V2. split; [exact V1|]. split; [exact V2|]. split; [exact V3|]. cbn [ar_raw]. repeat split.
    + rewrite lookup_insert_ne by done. exact (V c).
  - destruct (all_invariants w cf cap anon line hline Hlen Hn bs y R) as (I1 & I2 & (P & _) & _).
    pose proof I1 as (_ & _ & own & K). pose proof K as (K1 & K2 & K3 & K4 & K5).
    assert (T0 : known own c0).
    { apply K3. destruct (executed_log y) as [ex ->]. rewrite sent_app. apply elem_of_app. left. eapply sends_sent.
      eapply (pending_in_log cf anon line y q m (Some c0, wr0) I2 P M). unfold pending. rewrite Ph. by left. }
    assert (G : forall c, known own c -> but_addresses (view c) (if decide (c_uid c = c_uid c0) then patch (view c) else view c)).
    { intros c Hc. destruct (decide (c_uid c = c_uid c0)) as [E|N].
      2:{ apply but_refl. }
      assert (Ea : c_ar c = c_ar c0). { unfold known in Hc, T0. rewrite E, T0 in Hc. injection Hc as Hc. symmetry. exact Hc. }
      assert (Er : ar_raw (current (y_heap y) c) = ar_raw (current (y_heap y) c0)) by (unfold current; rewrite E; destruct (y_heap y !! c_uid c0); [reflexivity|rewrite Ea; reflexivity]).
      unfold patch. repeat split. cbn [ar_raw]. destruct (V c) as (_ & _ & _ & V4). rewrite Er in V4. unfold header_now in An.
      pose proof (anonymize_hidden anon (match ar_raw (current (y_heap y) c0) with Some b => b | None => [] end) Hlen) as Hh. rewrite An in Hh.
      destruct (hidden_header_outside anon _ _ Hlen Hh) as (L & L1 & L2 & L3).
      destruct (ar_raw (current (y_heap y) c0)) as [b|]; [|cbn in L; lia]. destruct (ar_raw (view c)) as [b'|]; [|contradiction].
      destruct V4 as (W1 & W2 & W3). split; [rewrite L1, W1; reflexivity|]. split; [rewrite L2, W2; reflexivity|rewrite L3, W3; reflexivity]. }
    apply (job_blind w cf).
    + intros k c Hc. apply G, K1. exists k. by right.
    + intros k c ->. apply G, (K2 k). rewrite J. by left.
Qed.

Lemma saver_marshaller_commute y y1 y2 q : reachable y -> step y y1 -> step y y2 -> alive y1 -> alive y2 ->
  moved TheSaver y y1 -> moved (Marshaller q) y y2 ->
  exists y3, step y1 y3 /\ moved (Marshaller q) y1 y3 /\ step y2 y3 /\ moved TheSaver y2 y3.
Proof using Hlen Hn.
  intros R S1 S2 A1 A2 V1 V2. destruct (all_invariants w cf cap anon line hline Hlen Hn bs y R) as (I1 & I2 & I3 & _).
  destruct (by_marsh q y y2 S2 (proj1 A2) V2) as (A & m & p & ts & e & M & D & Wg & ->).
  destruct (result_fields q m p ts e y) as (F1 & F2 & F3 & F4 & F5).
  destruct (by_saver y y1 S1 V1) as (_ & [(j & js & view & Pc & J & V & ->)|(a & ya & L & E & ->)]).
  - destruct (job_commutes y q m p ts e j js view R A M D Pc J V) as (view' & V' & Ej).
    set (s' := (run_job w cf view j (y_saver y)).1) in *. set (js' := (run_job w cf view j (y_saver y)).2 ++ js) in *.
    assert (X : result q m p ts e (with_saver s' js' y) = with_saver s' js' (result q m p ts e y)) by (unfold result, apply_eff; destruct e; reflexivity).
    exists (result q m p ts e (with_saver s' js' y)). split; [|split; [|split]].
    + apply does_step; [exact A1|exact M|exact D|exact Wg].
    + by eapply (result_moved q m p ts e (with_saver s' js' y)).
    + rewrite X. unfold s', js'. rewrite <- Ej, <- F1. apply st_job; [exact A2|by rewrite F3, F1|by rewrite F2|exact V'].
    + rewrite X. unfold moved in *. cbn [y_pc y_jobs with_saver] in *. rewrite F2, F3. exact V1.
  - pose proof (proj1 A1) as Pa. cbn [y_panic with_pc] in Pa. destruct (exec_saver _ _ _ _ _ E) as (G1 & G2 & G3 & G4).
    destruct (act_commutes y q m p ts e a ya M D E Pa) as (m' & ts' & M' & D' & E').
    { intros wr St Ab. pose proof (does_place _ _ _ _ _ D) as Pl.
      assert (On : on_writer TheSaver wr y).
      { exists a. split; [exact L|]. destruct a; try discriminate St; cbn in Ab; apply Nat.eqb_eq in Ab as ->; [left|right]; by eexists. }
      destruct e as [| |wr' b|wr'|]; try exact I; destruct Pl as (t & Ht & <-); eapply (writer_is_new y wr q t R On); by eapply inflight_task. }
    { intros -> ->. pose proof I3 as (_ & Sh & _ & W). destruct (next_action cf Hn y ADone Sh L) as (_ & Na & _). specialize (Na eq_refl).
      assert (Nd : existsb is_done (executed y) = false).
      { destruct (existsb is_done (executed y)) eqn:X; [|done]. exfalso. apply existsb_exists in X as (x & Hx & Dx). destruct x; try discriminate Dx. by apply Na, elem_of_list_In. }
      rewrite W, Nd. pose proof (count_running_insert cf cap Hn (y_marsh y) q m (mkmarsh [] true Finished) M) as C1.
      rewrite (does_running _ _ _ _ _ D) in C1. cbn [running m_phase] in C1. lia. }
    assert (X : result q m' p ts' e (with_pc (S (y_pc y)) ya) = with_pc (S (y_pc y)) (result q m' p ts' e ya)) by (unfold result, apply_eff; destruct e; reflexivity).
    exists (result q m' p ts' e (with_pc (S (y_pc y)) ya)). split; [|split; [|split]].
    + apply does_step; [exact A1|exact M'|exact D'|]. intros ->. cbn [y_wg with_pc].
      destruct a; cbn [exec] in E; try (injection E as <-; exact (Wg eq_refl)).
      * destruct (y_marsh y !! q0) as [m0|]; [|injection E as <-; discriminate Pa]. destruct (m_closed m0); [injection E as <-; discriminate Pa|].
        destruct (_ <? _); [|discriminate E]. injection E as <-. exact (Wg eq_refl).
      * destruct (y_marsh y !! q0) as [m0|]; [|injection E as <-; discriminate Pa]. destruct (m_closed m0); injection E as <-; [discriminate Pa|]. exact (Wg eq_refl).
      * intros Z. unfold result, apply_eff in E'. cbn [exec with_wg with_marsh y_wg] in E'.
        destruct (y_wg y) as [|[|n]] eqn:Wy; [injection E as <-; discriminate Pa| |injection E as <-; discriminate Z].
        cbn [Nat.pred] in E'. apply (f_equal (fun o => match o with Some x => y_panic x | None => false end)) in E'. cbn in E'. rewrite Pa in E'. discriminate E'.
    + by eapply (result_moved q m' p ts' e (with_pc (S (y_pc y)) ya)).
    + rewrite X, <- F3. apply (st_act w cf cap anon line hline _ a); [exact A2|by rewrite F1, F3|exact E'].
    + rewrite X. left. cbn [y_pc with_pc]. rewrite F3. lia.
Qed.

(** ** What is touched *)
Lemma files_touched y y' g wr : step y y' -> moved g y y' -> y_files y' !! wr <> y_files y !! wr -> on_writer g wr y.
Proof using.
  clear Hlen Hn.
  intros St Mv N. destruct g as [|q].
  - destruct (by_saver y y' St Mv) as (A & [(j & js & view & Pc & J & V & ->)|(a & ya & L & E & ->)]); [by destruct N|].
    exists a. split; [exact L|]. cbn [y_files with_pc] in N.
    destruct a as [| | | |wr0 path| |wr0 md| |q0 msg wr0| | | | | | |q0|]; cbn [exec] in E; try (injection E as <-; by destruct N).
    + left. injection E as <-. cbn in N. destruct (decide (wr0 = wr)) as [->|Ne]; [by exists path|]. by rewrite lookup_insert_ne in N.
    + right. injection E as <-. cbn in N. destruct (decide (wr0 = wr)) as [->|Ne]; [by exists md|]. by rewrite !write_other in N.
    + destruct (y_marsh y !! q0) as [m0|]; [|injection E as <-; by destruct N]. destruct (m_closed m0); [injection E as <-; by destruct N|].
      destruct (_ <? _); [|discriminate E]. injection E as <-. by destruct N.
    + destruct (y_marsh y !! q0) as [m0|]; [|injection E as <-; by destruct N]. destruct (m_closed m0); injection E as <-; by destruct N.
    + destruct (y_wg y); injection E as <-; by destruct N.
  - destruct (y_panic y') eqn:Pn.
    + exfalso. destruct (step_cases y y' St) as (A & [(j & js & view & Pc & J & V & ->)|[(a & ya & L & E & ->)|(q0 & m & p & ts & e & M & D & [(_ & _ & ->)|(_ & ->)])]]).
      * by destruct N.
      * destruct Mv as (Mv & _). cbn in Mv. lia.
      * by destruct N.
      * destruct (result_fields q0 m p ts e y) as (_ & _ & _ & F & _). rewrite F in Pn. rewrite (proj1 A) in Pn. discriminate Pn.
    + destruct (by_marsh q y y' St Pn Mv) as (A & m & p & ts & e & M & D & Wg & ->). exists m. split; [exact M|].
      assert (X : exists wr' F g, y_files (result q m p ts e y) = F (y_files y) /\ at_file wr' g F /\
        match m_phase m with Holding (None, wr0) => wr' = wr0 | Rendered _ _ wr0 | Newline _ wr0 => wr' = wr0 | _ => y_files (result q m p ts e y) = y_files y end).
      { destruct D as [t ts P C|P C Cl|wr' P|c wr' raw P An|c wr' e P An|c wr' P|c b wr' P|c wr' P]; rewrite P; unfold result, apply_eff; cbn [y_files with_marsh with_files with_heap with_wg].
        3: exists wr', (close_file wr'), shut; split; [reflexivity|]; split; [apply at_file_close|reflexivity].
        6: exists wr', (write wr' b), (put b); split; [reflexivity|]; split; [apply at_file_write|reflexivity].
        6: exists wr', (write wr' nl), (put nl); split; [reflexivity|]; split; [apply at_file_write|reflexivity].
        all: exists wr, id, id; split; [reflexivity|]; split; [|reflexivity]; intros fs k; unfold id; destruct (decide (k = wr)) as [->|]; reflexivity. }
      destruct X as (wr' & F & g & E & At & Ph).
      assert (K : wr' = wr). { destruct (decide (wr = wr')) as [->|Ne]; [reflexivity|]. exfalso. apply N. rewrite E, At. by rewrite decide_False. }
      destruct (m_phase m) as [|[[c|] wr0]|c wr0|c b wr0|c wr0|]; try (rewrite Ph in N; by destruct N); congruence.
Qed.

(** The bytes of a record that a step changes are the addresses of the record its
    marshaller is at. *)
Lemma records_touched y y' g c : reachable y -> step y y' -> moved g y y' ->
  in_cache c (y_saver y) \/ c ∈ sent (s_log (y_saver y)) ->
  current (y_heap y') c = current (y_heap y) c \/
  (but_addresses (current (y_heap y) c) (current (y_heap y') c) /\ exists q, g = Marshaller q /\ on_record q (c_uid c) y).
Proof using Hlen Hn.
  intros R St Mv Hc. destruct (step_cases y y' St) as (A & [(j & js & view & Pc & J & V & ->)|[(a & ya & L & E & ->)|(q0 & m & p & ts & e & M & D & [(_ & _ & ->)|(_ & ->)])]]).
  - by left.
  - left. destruct (exec_saver _ _ _ _ _ E) as (_ & _ & _ & G). cbn [y_heap with_pc]. by rewrite G.
  - by left.
  - destruct (match e with EHeap _ _ => true | _ => false end) eqn:Ee; [|left; unfold result, apply_eff; by destruct e].
    destruct e as [|u raw| | |]; try discriminate Ee. clear Ee.
    assert (exists c0 wr0, m_phase m = Holding (Some c0, wr0) /\ u = c_uid c0 /\ anonymize anon (header_now (y_heap y) c0) = Ret raw) as (c0 & wr0 & Ph & -> & An).
    { inversion D; subst. eexists _, _. split; [eassumption|]. split; [reflexivity|assumption]. }
    destruct (decide (c_uid c = c_uid c0)) as [E|N].
    2:{ left. unfold result, apply_eff, current. cbn [y_heap with_heap with_marsh]. rewrite lookup_insert_ne; [reflexivity|]. intros X. apply N. symmetry. exact X. }
    right. destruct (all_invariants w cf cap anon line hline Hlen Hn bs y R) as (I1 & I2 & (P & _) & _).
    pose proof I1 as (_ & _ & own & K). pose proof K as (K1 & K2 & K3 & K4 & K5).
    assert (T0 : known own c0).
    { apply K3. destruct (executed_log y) as [ex ->]. rewrite sent_app. apply elem_of_app. left. eapply sends_sent.
      eapply (pending_in_log cf anon line y q0 m (Some c0, wr0) I2 P M). unfold pending. rewrite Ph. by left. }
    assert (Tc : known own c) by (destruct Hc as [Hc|Hc]; [by apply K1|by apply K3]).
    assert (Ea : c_ar c = c_ar c0). { unfold known in Tc, T0. rewrite E, T0 in Tc. injection Tc as Tc. symmetry. exact Tc. }
    split.
    + unfold header_now in An.
      pose proof (anonymize_hidden anon (match ar_raw (current (y_heap y) c0) with Some b => b | None => [] end) Hlen) as Hh. rewrite An in Hh.
      destruct (hidden_header_outside anon _ _ Hlen Hh) as (L & L1 & L2 & L3).
      unfold result, apply_eff, current at 2. cbn [y_heap with_heap with_marsh]. rewrite E, lookup_insert.
      assert (Cu : current (y_heap y) c = current (y_heap y) c0) by (unfold current; rewrite E, Ea; reflexivity).
      assert (Cf : ar_time (current (y_heap y) c) = ar_time (c_ar c) /\ ar_attrs (current (y_heap y) c) = ar_attrs (c_ar c) /\ ar_meta (current (y_heap y) c) = ar_meta (c_ar c)).
      { unfold current. destruct (y_heap y !! c_uid c); repeat split. }
      destruct Cf as (C1 & C2 & C3). unfold but_addresses. rewrite C1, C2, C3, Cu. cbn [ar_time ar_attrs ar_meta ar_raw].
      split; [reflexivity|]. split; [reflexivity|]. split; [reflexivity|].
      destruct (ar_raw (current (y_heap y) c0)) as [b|]; [|cbn in L; lia]. split; [exact L1|]. split; [exact L2|exact L3].
    + exists q0. split; [|exists m; split; [exact M|]; rewrite Ph; symmetry; exact E].
      assert (Rm : moved (Marshaller q0) y (result q0 m p ts (EHeap (c_uid c0) raw) y)) by (by eapply result_moved).
      destruct g as [|q].
      * exfalso. destruct Rm as (R1 & R2 & _). destruct Mv as [Mv|Mv]; [by apply Mv|by apply Mv].
      * f_equal. destruct (decide (q = q0)) as [->|Nq]; [reflexivity|]. exfalso. destruct Mv as (_ & _ & Mv). apply Mv. apply result_other. congruence.
Qed.

(** ** Open writers *)
Lemma owned_history y q m t : reachable y -> y_marsh y !! q = Some m -> t ∈ pending m ->
  exists D T path f, mine t.2 (pending m) = T /\ T <> [] /\ y_files y !! t.2 = partial anon line (m_phase m) t.2 (Some f) /\ f_path f = path /\ f_open f = true /\
    file_actions t.2 (executed y) = D ++ map (as_send q) T.
Proof using Hlen Hn.
  intros R M T. destruct (all_invariants w cf cap anon line hline Hlen Hn bs y R) as (I1 & I2 & I3 & I4). pose proof I3 as (P & _).
  destruct (owner_exists w cf anon hline Hlen Hn (y_saver y) t.2 (proj1 I1)) as (q0 & Lq & Ho).
  pose proof (sends_in _ _ _ (pending_in_log cf anon line y q m t I2 P M T)) as Hin. destruct (executed_log y) as [ex El].
  assert (q = q0) as <- by (apply (Ho q t.1); rewrite El; apply elem_of_app; by left).
  destruct (I4 t.2 q m M Ho) as (D & HD & HF). destruct (exec_prefix y t.2) as [e Ee]. rewrite HD, <- app_assoc in Ee.
  assert (Nt : mine t.2 (pending m) <> []).
  { intros X. assert (t ∈ mine t.2 (pending m)) as Z; [|rewrite X in Z; by apply elem_of_nil in Z].
    apply elem_of_list_In, List.filter_In. split; [by apply elem_of_list_In|apply Nat.eqb_refl]. }
  destruct (file_histories w cf (y_saver y) t.2 (proj1 I1)) as [F|(cl & q1 & k & md & recs & path & F & _)].
  { rewrite Ee in F. apply app_eq_nil in F as [_ F]. apply app_eq_nil in F as [F _]. apply map_eq_nil in F. contradiction. }
  rewrite F in Ee. symmetry in Ee. pose proof (image_written anon line hline D _ _ _ _ _ _ _ Ee) as Im.
  rewrite Im in HF. destruct (mine t.2 (pending m)) as [|t1 T1] eqn:Em; [contradiction|].
  unfold written in Ee. destruct D as [|d D]; [discriminate Ee|]. cbn [app] in Ee. injection Ee as -> Ee.
  assert (Hcl : existsb is_closing (ACreate t.2 path :: D) = false).
  { cbn [existsb]. change (is_closing (ACreate t.2 path)) with false. cbn [orb].
    destruct (existsb is_closing D) eqn:X; [|reflexivity]. exfalso. apply existsb_exists in X as (x & Hx & Cx). apply elem_of_list_In in Hx.
    destruct D as [|d1 D]; [by apply elem_of_nil in Hx|]. cbn [app] in Ee. injection Ee as -> Ee.
    apply elem_of_cons in Hx as [->|Hx]; [discriminate Cx|].
    clear -Hx Cx Ee. revert recs Ee. induction D as [|d D IH]; intros recs H; [by apply elem_of_nil in Hx|].
    destruct recs as [|r recs]; cbn in H.
    - destruct cl; [|discriminate H]. injection H as -> H. destruct D; discriminate H.
    - injection H as -> H. apply elem_of_cons in Hx as [->|Hx]; [discriminate Cx|]. by apply (IH Hx recs). }
  unfold image_of in HF. rewrite Hcl in HF. cbn [negb] in HF.
  exists (ACreate t.2 path :: D), (t1 :: T1), path, (mkfile path (concat (map (file_line anon line hline) (ACreate t.2 path :: D))) true).
  split; [reflexivity|]. split; [discriminate|]. split; [exact HF|]. split; [reflexivity|]. split; [reflexivity|]. exact HD.
Qed.
Lemma marshaller_writer_open y q wr : reachable y -> on_writer (Marshaller q) wr y -> exists f, y_files y !! wr = Some f /\ f_open f = true.
Proof using Hlen Hn.
  intros R (m & M & Ph).
  assert (exists t, t ∈ pending m /\ t.2 = wr) as (t & Ht & <-).
  { unfold pending. destruct (m_phase m) as [|[[c|] wr0]|c wr0|c b wr0|c wr0|]; try contradiction; subst wr0; eexists; (split; [by left|reflexivity]). }
  destruct (owned_history y q m t R M Ht) as (D & T & path & f & _ & _ & HF & _ & Ho & _). unfold partial in HF.
  destruct (m_phase m) as [|[[c|] wr0]|c wr0|c b wr0|c wr0|]; try (exists f; split; [exact HF|exact Ho]).
  destruct (Nat.eqb wr0 t.2); [|exists f; split; [exact HF|exact Ho]]. destruct (hidden anon (c_ar c)) as [r|]; [|exists f; split; [exact HF|exact Ho]].
  unfold put in HF. rewrite Ho in HF. eexists. split; [exact HF|reflexivity].
Qed.
Lemma saver_writer_new y : reachable y ->
  (forall wr path, s_log (y_saver y) !! y_pc y = Some (ACreate wr path) -> y_files y !! wr = None) /\
  (forall wr md, s_log (y_saver y) !! y_pc y = Some (AHeader wr md) -> exists path, y_files y !! wr = Some (mkfile path [] true)).
Proof using Hlen Hn.
  intros R. destruct (all_invariants w cf cap anon line hline Hlen Hn bs y R) as (I1 & I2 & I3 & I4). pose proof I3 as (P & _).
  assert (G : forall a wr, s_log (y_saver y) !! y_pc y = Some a -> starts a = true -> about wr a = true ->
    exists path md r, (a = ACreate wr path /\ y_files y !! wr = None) \/ (a = AHeader wr md /\ y_files y !! wr = Some (mkfile path r true) /\ r = [])).
  { intros a wr L Sa Ab. destruct (owner_exists w cf anon hline Hlen Hn (y_saver y) wr (proj1 I1)) as (q & Lq & Ho).
    destruct (I2 P) as (_ & Hl & _). destruct (lookup_lt_is_Some_2 (y_marsh y) q ltac:(lia)) as [m M]. destruct (I4 wr q m M Ho) as (D & HD & HF).
    assert (On : on_writer TheSaver wr y).
    { exists a. split; [exact L|]. destruct a; try discriminate Sa; cbn in Ab; apply Nat.eqb_eq in Ab as ->; [left|right]; by eexists. }
    assert (No : forall t, t ∈ pending m -> t.2 <> wr).
    { intros t Ht. eapply (writer_is_new y wr q t R On). apply has_task_pending. by exists m. }
    rewrite (mine_nil wr (pending m) No) in HD. cbn [map] in HD. rewrite app_nil_r in HD.
    rewrite (partial_other anon line m wr _ No) in HF.
    pose proof (take_drop_middle _ _ _ L) as E. fold (executed y) in E.
    assert (Fa : file_actions wr (s_log (y_saver y)) = D ++ a :: file_actions wr (drop (S (y_pc y)) (s_log (y_saver y)))).
    { rewrite <- E at 1. rewrite file_actions_app, HD. f_equal. unfold file_actions at 1. cbn [List.filter]. by rewrite Ab. }
    destruct (file_histories w cf (y_saver y) wr (proj1 I1)) as [F|(cl & q1 & k & md & recs & path & F & _)].
    { rewrite F in Fa. destruct D; discriminate Fa. }
    rewrite F in Fa. unfold written in Fa. destruct D as [|d0 [|d1 D]].
    - cbn in Fa. injection Fa as <- _. exists path, md, []. left. split; [reflexivity|exact HF].
    - cbn in Fa. injection Fa as <- <- _. exists path, md, []. right. split; [reflexivity|]. split; [exact HF|reflexivity].
    - cbn in Fa. injection Fa as _ _ Fa. exfalso.
      assert (Hin : a ∈ map (fun m => ASend q1 (Some m) wr) recs ++ (if cl then [ASend q1 None wr] else [])) by (rewrite Fa; apply elem_of_app; right; by left).
      apply elem_of_app in Hin as [Hin|Hin].
      + apply elem_of_list_In, in_map_iff in Hin as (? & <- & _). discriminate Sa.
      + destruct cl; [|by apply elem_of_nil in Hin]. apply elem_of_list_singleton in Hin as ->. discriminate Sa. }
  split.
  - intros wr path L. destruct (G _ wr L eq_refl ltac:(cbn; apply Nat.eqb_refl)) as (path' & md & r & [(E & F)|(E & _)]); [exact F|discriminate E].
  - intros wr md L. destruct (G _ wr L eq_refl ltac:(cbn; apply Nat.eqb_refl)) as (path' & md' & r & [(E & _)|(E & F & ->)]); [discriminate E|by exists path'].
Qed.
End Races.
