(** Facts about executions in which a client of the event socket does not read. *)
From stdpp Require Import gmap relations.
From Coq Require Import NArith ZArith Lia.
From Verif Require Import GoBase Netlink Cache Saver SpecSaver SaverReports System SpecSystem SystemInv SystemEnd Program SpecProgram ProgramFacts ProgramEnd.
From Verif Require EventServer SpecEvents EventFacts SpecClient Collector.
From Verif Require Import SpecEvents SpecStall.
Local Open Scope list_scope.

Section Stall.
Variables (w : world) (cf : config) (cap : nat) (anon : bytes -> bytes) (line : archival -> bytes) (hline : metadata -> bytes).
Variables (v : Collector.environment) (reps : Z) (on : bool) (marshal : EventServer.flow_event -> option bytes).
Notation moves := (moves w cf cap anon line hline v reps on marshal).
Notation possible := (possible w cf cap anon line hline v reps on marshal).
Notation stalled := (stalled w cf cap anon line hline v reps on marshal).
Notation sstep := (step w cf cap anon line hline).

Lemma stalled_moves c g g' : stalled c g g' -> rtc moves g g'.
Proof. induction 1 as [|g h k [M _] _ IH]; [apply rtc_refl|by eapply rtc_l]. Qed.
Lemma stalled_possible c g g' : possible g -> stalled c g g' -> possible g'.
Proof. intros Hp H. eapply rtc_transitive; [exact Hp|by eapply stalled_moves]. Qed.

(** What does not change, or only grows, while c is being written to (eventsocket/server.go:80-95) *)
Definition holds (c : nat) (ln : bytes) (s s' : EventServer.state) : Prop :=
  waiting s' c = Some ln /\ broadcasts (EventServer.log s') = broadcasts (EventServer.log s) /\
  List.filter comes_or_goes (EventServer.log s') = List.filter comes_or_goes (EventServer.log s) /\
  (exists es, submitted (EventServer.log s') = submitted (EventServer.log s) ++ es /\ EventServer.buf s' = EventServer.buf s ++ es /\
     (es = [] \/ length (EventServer.buf s') <= EventServer.capacity)).

Lemma holds_refl c ln s : waiting s c = Some ln -> holds c ln s s.
Proof. intros H. split; [exact H|]. split; [reflexivity|]. split; [reflexivity|]. exists []. rewrite !app_nil_r. auto. Qed.
Lemma holds_trans c ln s1 s2 s3 : holds c ln s1 s2 -> holds c ln s2 s3 -> holds c ln s1 s3.
Proof.
  intros (A1 & A2 & A3 & es & A4 & A5 & A6) (B1 & B2 & B3 & fs & B4 & B5 & B6).
  split; [exact B1|]. split; [congruence|]. split; [congruence|]. exists (es ++ fs). rewrite B4, A4, B5, A5, <- !app_assoc. split; [done|]. split; [done|].
  destruct B6 as [->|B6].
  - rewrite !app_nil_r in *. destruct A6 as [->|A6]; [by left|right]. by rewrite A5 in A6.
  - right. rewrite B5, A5, <- app_assoc in B6. exact B6.
Qed.

Lemma waiting_send s c ln : waiting s c = Some ln -> exists todo, EventServer.np s = EventServer.NSend ln todo /\ c ∈ todo.
Proof.
  unfold waiting. destruct (EventServer.np s) as [| |d|l todo|]; try discriminate. destruct (decide (c ∈ todo)); [|discriminate].
  intros [= <-]. by exists todo.
Qed.
Lemma send_waiting s c ln todo : EventServer.np s = EventServer.NSend ln todo -> c ∈ todo -> waiting s c = Some ln.
Proof. intros E H. unfold waiting. rewrite E. by rewrite decide_True. Qed.

Lemma snoc_ne {A} (l : list A) x : l ++ [x] <> l.
Proof. intros E. apply (f_equal length) in E. rewrite app_length in E. cbn in E. lia. Qed.

Lemma filter_snoc (P : EventServer.obs -> bool) l o : P o = false -> List.filter P (l ++ [o]) = List.filter P l.
Proof. intros E. rewrite List.filter_app. cbn [List.filter]. rewrite E. apply app_nil_r. Qed.
Lemma broadcasts_snoc l o : (forall b, o <> EventServer.OBroadcast b) -> broadcasts (l ++ [o]) = broadcasts l.
Proof. intros E. unfold broadcasts. rewrite omap_app. destruct o; cbn; try apply app_nil_r. by destruct (E line0). Qed.

Lemma holds_log c ln s s' o : waiting s' c = Some ln -> EventServer.log s' = EventServer.log s ++ [o] -> EventServer.buf s' = EventServer.buf s ->
  (match o with EventServer.OWrite _ _ _ | EventServer.OHangup _ | EventServer.OCloseListener | EventServer.OCloseChan => True | _ => False end) -> holds c ln s s'.
Proof.
  intros H L B O. split; [exact H|]. rewrite L. split; [apply broadcasts_snoc; intros b ->; exact O|]. split; [apply filter_snoc; by destruct o|].
  exists []. rewrite B, EventFacts.submitted_snoc, !app_nil_r. split; [|auto]. destruct o; try contradiction; by rewrite ?app_nil_r.
Qed.
Lemma holds_quiet c ln s s' : waiting s' c = Some ln -> EventServer.log s' = EventServer.log s -> EventServer.buf s' = EventServer.buf s -> holds c ln s s'.
Proof. intros H L B. split; [exact H|]. rewrite L, B. split; [reflexivity|]. split; [reflexivity|]. exists []. rewrite !app_nil_r. auto. Qed.

Lemma server_holds c ln s s' : waiting s c = Some ln -> EventServer.server marshal s s' ->
  attempts c (EventServer.log s') = attempts c (EventServer.log s) -> holds c ln s s'.
Proof.
  intros Hw S U. destruct (waiting_send _ _ _ Hw) as (todo & En & Hc).
  assert (Kw : forall d, EventServer.np d = EventServer.np s -> waiting d c = Some ln) by (intros d Ed; eapply send_waiting; [by rewrite Ed|exact Hc]).
  assert (Kc : forall l1 c' l2 o, todo = l1 ++ c' :: l2 -> (o = EventServer.OWrite c' ln None \/ exists n, o = EventServer.OWrite c' ln (Some n)) ->
    attempts c (EventServer.log s ++ [o]) = attempts c (EventServer.log s) -> c ∈ l1 ++ l2).
  { intros l1 c' l2 o E O X. rewrite E in Hc. apply elem_of_app in Hc. rewrite elem_of_cons in Hc. apply elem_of_app. destruct Hc as [Hc|[->|Hc]]; [by left| |by right].
    exfalso. unfold attempts in X. rewrite omap_app in X. destruct O as [->|[n ->]]; cbn in X; rewrite decide_True in X by done; by apply snoc_ne in X. }
  destruct S as [N C|N C|e r d N B M|e r N B M|N B C|d N|l l1 c' l2 N H|l l1 c' l2 n N L H|l N|P C|P C|P C|c' P F|P C|P|P|l1 c' l2 R F I|l1 c' l2 R F I|l1 c' l2 R]; try congruence.
  - rewrite En in N. injection N as -> ->. eapply holds_log; [|reflexivity|reflexivity|exact I].
    eapply send_waiting; [reflexivity|]. eapply Kc; [reflexivity|by left|exact U].
  - rewrite En in N. injection N as -> ->. eapply holds_log; [|reflexivity|reflexivity|exact I].
    eapply send_waiting; [reflexivity|]. eapply Kc; [reflexivity|right; by exists n|exact U].
  - rewrite En in N. injection N as -> ->. by apply elem_of_nil in Hc.
  - by apply holds_quiet; [apply Kw|..].
  - by apply holds_quiet; [apply Kw|..].
  - by apply holds_quiet; [apply Kw|..].
  - unfold EventServer.mutex_free in F. by rewrite En in F.
  - by apply holds_quiet; [apply Kw|..].
  - eapply holds_log; [by apply Kw|reflexivity|reflexivity|exact I].
  - eapply holds_log; [by apply Kw|reflexivity|reflexivity|exact I].
  - unfold EventServer.mutex_free in F. by rewrite En in F.
  - unfold EventServer.mutex_free in F. by rewrite En in F.
  - eapply holds_log; [by apply Kw|reflexivity|reflexivity|exact I].
Qed.

Lemma moves_holds c ln g g' : waiting (g_srv g) c = Some ln -> moves g g' -> unread c g g' -> holds c ln (g_srv g) (g_srv g').
Proof.
  intros Hw M U. pose proof (holds_refl c ln _ Hw) as Hr. destruct (waiting_send _ _ _ Hw) as (todo & En & Hc).
  destruct M as [g' (R1 & R2 & R3) W|g' (R1 & R2 & R3) O].
  - destruct W as [n b d M G C|n b M L|n M G|M|M Wg|b bs (R4 & R5 & R6) C|(R4 & R5 & R6) C Cl|y S E|y e S E Cl L|y e S E Cl]; try exact Hr.
    + cbn [g_srv with_srv with_sys]. split; [by eapply send_waiting|]. cbn [EventServer.log EventServer.buf EventServer.add_log EventServer.set_buf].
      split; [by apply broadcasts_snoc|]. split; [by apply filter_snoc|]. exists [e]. rewrite EventFacts.submitted_snoc. split; [done|]. split; [done|].
      right. rewrite app_length. cbn [length]. unfold EventServer.capacity in *. lia.
  - destruct O as [s O S|s S B C]; cbn [g_srv with_srv] in *.
    + by apply server_holds.
    + destruct S as [e Cl L|e Cl| |P L|P L]; cbn in B, C.
      * by apply snoc_ne in B.
      * discriminate C.
      * apply holds_quiet; [by eapply send_waiting|done..].
      * apply holds_quiet; [by eapply send_waiting|done..].
      * apply holds_quiet; [by eapply send_waiting|done..].
Qed.

Lemma stalled_holds c ln g g' : waiting (g_srv g) c = Some ln -> stalled c g g' -> holds c ln (g_srv g) (g_srv g').
Proof.
  intros Hw H. induction H as [g|g h k [M U] _ IH]; [by apply holds_refl|].
  pose proof (moves_holds _ _ _ _ Hw M U) as K. eapply holds_trans; [exact K|]. apply IH. apply K.
Qed.

(** At most as many further events as fit into the channel *)
Lemma stalled_submitted c ln g g' : waiting (g_srv g) c = Some ln -> stalled c g g' ->
  length (submitted (EventServer.log (g_srv g'))) <= length (submitted (EventServer.log (g_srv g))) + (EventServer.capacity - length (EventServer.buf (g_srv g))).
Proof.
  intros Hw H. destruct (stalled_holds _ _ _ _ Hw H) as (_ & _ & _ & es & E1 & E2 & E3). rewrite E1, app_length.
  destruct E3 as [->|E3]; [cbn; lia|]. rewrite E2, app_length in E3. lia.
Qed.

Lemma stalled_reports c ln g g' : on = true -> possible g -> waiting (g_srv g) c = Some ln -> stalled c g g' ->
  length (reports (uuid_prefix w) (executed (g_sys g'))) <= length (reports (uuid_prefix w) (executed (g_sys g))) + (EventServer.capacity - length (EventServer.buf (g_srv g))).
Proof.
  intros Hon Hp Hw H. pose proof (stalled_submitted _ _ _ _ Hw H) as L.
  rewrite (submitted_reports w cf cap anon line hline v reps on marshal g Hp Hon) in L.
  rewrite (submitted_reports w cf cap anon line hline v reps on marshal g' (stalled_possible _ _ _ Hp H) Hon) in L.
  rewrite !map_length in L. exact L.
Qed.

(** ** The channel is full and the saver has another event (eventsocket/server.go:169-186) *)
Definition next_event (y : sys) : Prop := exists a e, s_log (y_saver y) !! y_pc y = Some a /\ event_sent (uuid_prefix w) a = Some e.
(** The channel of the server holds as many events as its capacity (eventsocket/server.go:190) *)
Definition full_up (g : prog) : Prop := EventServer.capacity <= length (EventServer.buf (g_srv g)) /\ next_event (g_sys g).

Lemma blocked_step y y' : next_event y -> sstep y y' ->
  (y_saver y' = y_saver y /\ y_pc y' = y_pc y /\ y_jobs y' = y_jobs y) \/ exists e, submits w true y y' = Some e.
Proof.
  intros (a & e & L & E) S.
  destruct S as [y j js view A P Ej V|y a' y' A L' X|y q m t ts A M P C|y q m A M P C Cl|y q m wr A M P|y q m c wr raw A M P R
    |y q m c wr e' A M P R|y q m c wr A M P|y q m c b wr A M P|y q m c wr A M P]; try (left; by repeat split).
  - apply lookup_lt_Some in L. lia.
  - right. exists e. unfold submits. destruct (exec_saver _ _ _ _ _ X) as (_ & _ & E3 & _). cbn [y_pc with_pc].
    destruct (Nat.eqb_spec (S (y_pc y)) (y_pc y)); [lia|]. rewrite L. exact E.
  - left. destruct (y_wg y); by repeat split.
Qed.

Lemma blocked_move c ln g g' : on = true -> possible g -> waiting (g_srv g) c = Some ln -> full_up g -> moves g g' -> unread c g g' ->
  EventServer.cancelled (g_srv g') = false ->
  y_saver (g_sys g') = y_saver (g_sys g) /\ y_pc (g_sys g') = y_pc (g_sys g) /\ full_up g' /\
  length (g_sent g') + length (g_chan g) = length (g_sent g) + length (g_chan g').
Proof.
  intros Hon Hp Hw [F Ne] M U Hcan. pose proof (moves_holds _ _ _ _ Hw M U) as (_ & _ & _ & es & _ & Eb & _).
  assert (F' : EventServer.capacity <= length (EventServer.buf (g_srv g'))) by (rewrite Eb, app_length; lia).
  assert (Hp' : possible g') by (eapply rtc_r; [exact Hp|exact M]).
  destruct (not_closed w cf cap anon line hline v reps on marshal g' Hp' Hcan) as [Hcl Hcr].
  assert (Nr : ~ receiving g).
  { intros (_ & _ & R). destruct Ne as (a & e & L & _). apply lookup_lt_Some in L. lia. }
  destruct M as [g' _ W|g' _ O].
  - destruct W as [n b d M G C|n b M L|n M G|M|M Wg|b bs R C|R C Cl|y S E|y e S E Cl L|y e S E Cl]; try contradiction;
      cbn [g_sys g_sent g_chan g_srv with_main with_chan with_sys with_srv] in *; try (split; [reflexivity|]; split; [reflexivity|]; split; [done|]; rewrite ?app_length; cbn; lia).
    + rewrite Hon in E. destruct (blocked_step _ _ Ne S) as [(Y1 & Y2 & Y3)|(e & Y)]; [|congruence]. split; [exact Y1|]. split; [exact Y2|]. split; [|lia].
      split; [exact F'|]. cbn. unfold next_event in *. by rewrite Y1, Y2.
    + lia.
  - destruct O as [s O S|s S B C]; cbn [g_sys g_sent g_chan g_srv with_srv] in *; (split; [reflexivity|]; split; [reflexivity|]; split; [done|lia]).
Qed.

Lemma cancelled_stays g g' : rtc moves g g' -> EventServer.cancelled (g_srv g') = false -> EventServer.cancelled (g_srv g) = false.
Proof.
  induction 1 as [|g h k M _ IH]; [done|]. intros Hk. specialize (IH Hk). destruct (EventServer.cancelled (g_srv g)) eqn:E; [|reflexivity].
  rewrite <- IH. symmetry. destruct M as [h _ W|h _ O].
  - destruct W; exact E.
  - destruct O as [s O S|s S B C]; cbn; [rewrite (server_cancelled marshal _ _ S); exact E|by eapply outside_keeps_cancelled].
Qed.

Lemma blocked c ln g g' : on = true -> possible g -> waiting (g_srv g) c = Some ln -> full_up g -> stalled c g g' ->
  EventServer.cancelled (g_srv g') = false ->
  y_saver (g_sys g') = y_saver (g_sys g) /\ y_pc (g_sys g') = y_pc (g_sys g) /\ full_up g' /\ length (g_sent g') <= length (g_sent g) + 2.
Proof.
  intros Hon Hp Hw Hf H Hcan.
  assert (K : y_saver (g_sys g') = y_saver (g_sys g) /\ y_pc (g_sys g') = y_pc (g_sys g) /\ full_up g' /\
    length (g_sent g') + length (g_chan g) = length (g_sent g) + length (g_chan g')).
  { revert Hp Hw Hf Hcan. induction H as [g|g h k [M U] Hs IH]; intros Hp Hw Hf Hcan; [auto|].
    assert (Hh : EventServer.cancelled (g_srv h) = false) by (eapply cancelled_stays; [by eapply stalled_moves|exact Hcan]).
    destruct (blocked_move _ _ _ _ Hon Hp Hw Hf M U Hh) as (B1 & B2 & B3 & B4).
    destruct IH as (A1 & A2 & A3 & A4); [by eapply rtc_r|by eapply moves_holds|exact B3|exact Hcan|].
    split; [congruence|]. split; [congruence|]. split; [exact A3|lia]. }
  destruct K as (K1 & K2 & K3 & K4). split; [exact K1|]. split; [exact K2|]. split; [exact K3|].
  destruct (invs w cf cap anon line hline v reps on marshal g' (stalled_possible _ _ _ Hp H)) as [(_ & _ & _ & _ & L & _) _]. lia.
Qed.
End Stall.
