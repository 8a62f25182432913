(** Property C65: the goroutines of the saver package do not get in each other's
    way. *)
From Coq Require Import Strings.String.
From stdpp Require Import gmap.
From Coq Require Import NArith ZArith Lia.
From Verif Require Import GoBase GoBaseFacts GoTime Inetdiag Netlink SpecNetlink SpecCompare Cache SpecCache Saver SpecSaver System SpecSystem
  SpecRaces SystemJobs SaverSteps SaverFiles SaverRuns SystemInv SystemFiles SystemRefine SystemEnd SystemHidden RaceFacts Samples P_Compare P_Saver P_System.
Local Open Scope list_scope.

(** ** The case used below: the saver has just queued record 0, marshaller 1 has
    received it and is about to anonymize it, and the saver, which still has
    record 0 in its cache, is about to compare it with the next message. *)
Definition pick1 (n : nat) : list (option nat) := match n with 1 => [Some 1] | _ => [None] end.
Definition busy0 : sys := run0 pick1 18.
Lemma busy0_reachable : reachable w0 cf0 1 anon0 line0 hline0 bs0 busy0.
Proof. apply schedule_steps. Qed.
Example busy0_marshaller : on_record 1 0 busy0.
Proof.
  assert (H : match y_marsh busy0 !! 1 with Some m => match m_phase m with Holding (Some c, _) => Nat.eqb (c_uid c) 0 | _ => false end | None => false end = true)
    by (vm_compute; reflexivity).
  unfold on_record. destruct (y_marsh busy0 !! 1) as [m|]; [|discriminate H]. exists m. split; [reflexivity|].
  destruct (m_phase m) as [|[[c|] wr]|c wr|c b wr|c wr|]; try discriminate H. apply Nat.eqb_eq. exact H.
Qed.
Example busy0_saver : existsb (fun kc => Nat.eqb (c_uid kc.2) 0) (map_to_list (prev (s_cache (y_saver busy0)))) = true /\
  match y_jobs busy0 with JMsg _ (Some _) :: _ => y_pc busy0 =? length (s_log (y_saver busy0)) | _ => false end = true.
Proof. split; vm_compute; reflexivity. Qed.

(** ** Two goroutines that can both go on: it does not matter who goes first *)
Theorem C65_commute : forall w cf cap anon line hline, (forall x, length (anon x) = length x) -> 1 <= nmarsh cf ->
  forall bs y, reachable w cf cap anon line hline bs y -> forall g1 g2 y1 y2, g1 <> g2 ->
  step w cf cap anon line hline y y1 -> moved g1 y y1 -> alive y1 ->
  step w cf cap anon line hline y y2 -> moved g2 y y2 -> alive y2 ->
  exists y3, step w cf cap anon line hline y1 y3 /\ moved g2 y1 y3 /\
             step w cf cap anon line hline y2 y3 /\ moved g1 y2 y3.
Proof.
  intros w cf cap anon line hline Hl Hn bs y R g1 g2 y1 y2 N S1 V1 A1 S2 V2 A2. destruct g1 as [|q1], g2 as [|q2].
  - destruct (N eq_refl).
  - exact (saver_marshaller_commute w cf cap anon line hline Hl Hn bs y y1 y2 q2 R S1 S2 A1 A2 V1 V2).
  - destruct (saver_marshaller_commute w cf cap anon line hline Hl Hn bs y y2 y1 q1 R S2 S1 A2 A1 V2 V1) as (y3 & H1 & H2 & H3 & H4).
    exists y3. split; [exact H3|]. split; [exact H4|]. split; [exact H1|exact H2].
  - assert (Nq : q1 <> q2) by (intros E; apply N; f_equal; exact E).
    exact (marshallers_commute w cf cap anon line hline Hl Hn bs y y1 y2 q1 q2 R Nq S1 S2 (proj1 A1) (proj1 A2) V1 V2).
Qed.
Print Assumptions C65_commute.

Definition next (g : option nat) (y : sys) : sys := match move w0 cf0 1 anon0 line0 hline0 g y with Some y' => y' | None => y end.
Example c65_commute_case :
  reachable w0 cf0 1 anon0 line0 hline0 bs0 busy0 /\
  (step w0 cf0 1 anon0 line0 hline0 busy0 (next None busy0) /\ moved TheSaver busy0 (next None busy0) /\ alive (next None busy0)) /\
  (step w0 cf0 1 anon0 line0 hline0 busy0 (next (Some 1) busy0) /\ moved (Marshaller 1) busy0 (next (Some 1) busy0) /\ alive (next (Some 1) busy0)) /\
  y_heap (next (Some 1) busy0) !! 0 <> y_heap busy0 !! 0.
Proof.
  assert (M : forall g, match move w0 cf0 1 anon0 line0 hline0 g busy0 with Some _ => true | None => false end = true ->
    step w0 cf0 1 anon0 line0 hline0 busy0 (next g busy0)).
  { intros g H. unfold next. destruct (move w0 cf0 1 anon0 line0 hline0 g busy0) as [y'|] eqn:E; [|discriminate H]. by eapply move_step. }
  split; [exact busy0_reachable|]. split; [split; [|split]|split; [split; [|split]|]].
  - apply M. vm_compute. reflexivity.
  - right. assert (L : length (y_jobs (next None busy0)) <> length (y_jobs busy0)) by (vm_compute; discriminate). congruence.
  - apply aliveb_alive. vm_compute. reflexivity.
  - apply M. vm_compute. reflexivity.
  - split; [vm_compute; reflexivity|]. split; [vm_compute; reflexivity|]. unfold phase_of.
    assert (L : match y_marsh (next (Some 1) busy0) !! 1, y_marsh busy0 !! 1 with
      | Some a, Some b => match m_phase a, m_phase b with Anonymized _ _, Holding _ => true | _, _ => false end | _, _ => false end = true) by (vm_compute; reflexivity).
    destruct (y_marsh (next (Some 1) busy0) !! 1) as [a|], (y_marsh busy0 !! 1) as [b|]; try discriminate L. cbn. intros [= E].
    destruct (m_phase a), (m_phase b); discriminate.
  - apply aliveb_alive. vm_compute. reflexivity.
  - vm_compute. discriminate.
Qed.

(** ** Whose the writers and the records are *)
(** A writer is with one marshaller at a time, and the saver is done with it
    before any marshaller gets it. *)
Theorem C65_writers : forall w cf cap anon line hline, (forall x, length (anon x) = length x) -> 1 <= nmarsh cf ->
  forall bs y, reachable w cf cap anon line hline bs y ->
  (forall q q' t t', has_task q t y -> has_task q' t' y -> t.2 = t'.2 -> q = q') /\
  (forall wr q t, on_writer TheSaver wr y -> has_task q t y -> t.2 <> wr) /\
  (forall g g' wr, on_writer g wr y -> on_writer g' wr y -> g = g').
Proof.
  intros w cf cap anon line hline Hl Hn bs y R.
  assert (T : forall q wr, on_writer (Marshaller q) wr y -> exists t, has_task q t y /\ t.2 = wr).
  { intros q wr (m & M & H). destruct (m_phase m) as [|[[c|] wr']|c wr'|c b wr'|c wr'|] eqn:Ph; try contradiction; subst wr';
      eexists; (split; [exists m; split; [exact M|]; right; rewrite Ph; reflexivity|reflexivity]). }
  assert (O : forall q q' t t', has_task q t y -> has_task q' t' y -> t.2 = t'.2 -> q = q').
  { intros q q' t t'. exact (one_owner w cf cap anon line hline Hl Hn bs y q q' t t' R). }
  assert (W : forall wr q t, on_writer TheSaver wr y -> has_task q t y -> t.2 <> wr).
  { intros wr q t. exact (writer_is_new w cf cap anon line hline Hl Hn bs y wr q t R). }
  split; [exact O|]. split; [exact W|]. intros [|q] [|q'] wr H H'.
  - reflexivity.
  - destruct (T q' wr H') as (t & Ht & E). destruct (W wr q' t H Ht E).
  - destruct (T q wr H) as (t & Ht & E). destruct (W wr q t H' Ht E).
  - destruct (T q wr H) as (t & Ht & E), (T q' wr H') as (t' & Ht' & E'). f_equal. apply (O q q' t t' Ht Ht'). congruence.
Qed.
Print Assumptions C65_writers.
Example c65_writers_case : exists m c, y_marsh busy0 !! 1 = Some m /\ m_phase m = Holding (Some c, 0).
Proof.
  assert (H : match y_marsh busy0 !! 1 with Some m => match m_phase m with Holding (Some c, wr) => Nat.eqb wr 0 | _ => false end | None => false end = true)
    by (vm_compute; reflexivity).
  destruct (y_marsh busy0 !! 1) as [m|]; [|discriminate H]. exists m.
  destruct (m_phase m) as [|[[c|] wr]|c wr|c b wr|c wr|] eqn:Ph; try discriminate H. exists c. apply Nat.eqb_eq in H as ->. split; [reflexivity|reflexivity].
Qed.

(** A record is with one marshaller at a time, and none has the record that the
    saver makes next. *)
Theorem C65_records : forall w cf cap anon line hline, (forall x, length (anon x) = length x) -> 1 <= nmarsh cf ->
  forall bs y, reachable w cf cap anon line hline bs y ->
  (forall q q' c c' wr wr', has_task q (Some c, wr) y -> has_task q' (Some c', wr') y -> c_uid c = c_uid c' -> q = q') /\
  (forall q c wr, has_task q (Some c, wr) y -> c_uid c < p_uid (s_pos (y_saver y))).
Proof.
  intros w cf cap anon line hline Hl Hn bs y R. split.
  - intros q q' c c' wr wr'. exact (one_record w cf cap anon line hline Hl Hn bs y q q' c c' wr wr' R).
  - intros q c wr. exact (not_the_new_one w cf cap anon line hline Hl Hn bs y q c wr R).
Qed.
Print Assumptions C65_records.

(** ** What a step changes *)
(** A file changes only by a step of the goroutine that is at its writer; a record
    that the saver has in its cache or has queued changes only in its addresses,
    by a step of the marshaller that is at it. *)
Theorem C65_changes : forall w cf cap anon line hline, (forall x, length (anon x) = length x) -> 1 <= nmarsh cf ->
  forall bs y y' g, reachable w cf cap anon line hline bs y -> step w cf cap anon line hline y y' -> moved g y y' ->
  (forall wr, y_files y' !! wr <> y_files y !! wr -> on_writer g wr y) /\
  (forall c, saver_has c (y_saver y) ->
     current (y_heap y') c = current (y_heap y) c \/
     (but_addresses (current (y_heap y) c) (current (y_heap y') c) /\ exists q, g = Marshaller q /\ on_record q (c_uid c) y)).
Proof.
  intros w cf cap anon line hline Hl Hn bs y y' g R St Mv. split.
  - intros wr. exact (files_touched w cf cap anon line hline y y' g wr St Mv).
  - intros c Hc. apply (records_touched w cf cap anon line hline Hl Hn bs y y' g c R St Mv).
    destruct Hc as [Hc|(q & wr & Hc)]; [left; exact Hc|right]. eapply sent_in. exact Hc.
Qed.
Print Assumptions C65_changes.

(** The saver does not look at the addresses of the records in its cache: whatever
    they are while it works, it does the same. *)
Theorem C65_saver_reads : forall w cf view view' j s, (forall c, but_addresses (view c) (view' c)) ->
  run_job w cf view' j s = run_job w cf view j s.
Proof. intros w cf view view' j s H. apply job_blind; intros k c _; apply H. Qed.
Print Assumptions C65_saver_reads.
(** The two views of busy0: before and after marshaller 1 has anonymized record 0. *)
Example c65_reads_case : exists c, c_uid c = 0 /\ saver_has c (y_saver busy0) /\
  current (y_heap busy0) c <> current (y_heap (next (Some 1) busy0)) c /\
  but_addresses (current (y_heap busy0) c) (current (y_heap (next (Some 1) busy0)) c).
Proof.
  assert (H : existsb (fun kc => Nat.eqb (c_uid kc.2) 0 &&
      match ar_raw (current (y_heap busy0) kc.2), ar_raw (current (y_heap (next (Some 1) busy0)) kc.2) with
      | Some a, Some b => negb (bytes_eqb a b) | _, _ => false end) (map_to_list (prev (s_cache (y_saver busy0)))) = true) by (vm_compute; reflexivity).
  apply existsb_exists in H as ([k c] & Hin & H). apply andb_prop in H as [H1 H2]. cbn [snd] in *. apply Nat.eqb_eq in H1.
  assert (Ic : saver_has c (y_saver busy0)) by (left; exists k; right; apply elem_of_map_to_list, elem_of_list_In, Hin).
  assert (Ne : current (y_heap busy0) c <> current (y_heap (next (Some 1) busy0)) c).
  { intros E. rewrite <- E in H2. destruct (ar_raw (current (y_heap busy0) c)) as [a|]; [|discriminate H2].
    assert (B : bytes_eqb a a = true) by (apply bytes_eqb_refl). rewrite B in H2. discriminate H2. }
  exists c. split; [exact H1|]. split; [exact Ic|]. split; [exact Ne|].
  destruct c65_commute_case as (R & _ & (St & Mv & _) & _).
  destruct (C65_changes w0 cf0 1 anon0 line0 hline0 anon0_len ltac:(vm_compute; lia) bs0 _ _ _ R St Mv) as [_ G].
  destruct (G c Ic) as [E|[E _]]; [destruct (Ne (eq_sym E))|exact E].
Qed.

(** ** Writers are open when they are used *)
(** No schedule makes a marshaller call Write or Close of a writer that has been
    closed; the saver makes a writer once, and its first line is the first. *)
Theorem C65_open : forall w cf cap anon line hline, (forall x, length (anon x) = length x) -> 1 <= nmarsh cf ->
  forall bs y, reachable w cf cap anon line hline bs y ->
  (forall q wr, on_writer (Marshaller q) wr y -> exists f, y_files y !! wr = Some f /\ f_open f = true) /\
  (forall wr path, s_log (y_saver y) !! y_pc y = Some (ACreate wr path) -> y_files y !! wr = None) /\
  (forall wr md, s_log (y_saver y) !! y_pc y = Some (AHeader wr md) -> exists path, y_files y !! wr = Some (mkfile path [] true)).
Proof.
  intros w cf cap anon line hline Hl Hn bs y R. split.
  - intros q wr. exact (marshaller_writer_open w cf cap anon line hline Hl Hn bs y q wr R).
  - exact (saver_writer_new w cf cap anon line hline Hl Hn bs y R).
Qed.
Print Assumptions C65_open.
(** Two steps later marshaller 1 is at its writer. *)
Example c65_open_case : on_writer (Marshaller 1) 0 (next (Some 1) (next (Some 1) busy0)) /\
  match y_files (next (Some 1) (next (Some 1) busy0)) !! 0 with Some f => f_open f && (0 <? length (f_data f)) | None => false end = true.
Proof.
  split; [|vm_compute; reflexivity]. set (y := next (Some 1) (next (Some 1) busy0)).
  assert (H : match y_marsh y !! 1 with Some m => match m_phase m with Rendered _ _ wr => Nat.eqb wr 0 | _ => false end | None => false end = true)
    by (vm_compute; reflexivity).
  clearbody y. unfold on_writer. destruct (y_marsh y !! 1) as [m|]; [|discriminate H]. exists m. split; [reflexivity|].
  destruct (m_phase m) as [|[[c|] wr]|c wr|c b wr|c wr|]; try discriminate H. apply Nat.eqb_eq. exact H.
Qed.
