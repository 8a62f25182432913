(** C43, C44: the event server. *)
From Coq Require Import Strings.String.
From stdpp Require Import gmap.
From Coq Require Import NArith ZArith Lia.
From Verif Require Import GoBase Inetdiag EventName EventServer SpecEvents EventFacts.
Local Open Scope list_scope.

Lemma pending_waiting s c : pending (view_of s) c = option_list (waiting s c).
Proof. unfold pending, waiting, view_of. cbn. destruct (np s); try reflexivity. cbn. destruct (decide (c ∈ todo)); reflexivity. Qed.

Lemma cut_unique (x : obs) a b a' b' : a ++ x :: b = a' ++ x :: b' -> x ∉ a' -> x ∉ b' -> a = a' /\ b = b'.
Proof.
  revert a'. induction a as [|y a IH]; intros a0 E Ha Hb; destruct a0 as [|z a']; cbn in E.
  - injection E as E. split; [reflexivity | exact E].
  - injection E as E1 _. exfalso. apply Ha. rewrite E1. left.
  - injection E as _ E. exfalso. apply Hb. rewrite <- E. apply elem_of_app. right. left.
  - injection E as <- E. destruct (IH a' E) as (-> & ->); [intros X; apply Ha; right; exact X | exact Hb|]. split; reflexivity.
Qed.

(** ** C43: each client is sent a segment of the broadcast lines *)

(** As long as a client has not been removed, what has been written to it is
    every line broadcast since it was added, in order and once each; only the
    line being broadcast at the moment may still be to come. *)
Theorem C43_attempts marshal s c l1 l2 :
  reachable marshal s -> log s = l1 ++ OAdd c :: l2 -> ORemove c ∉ l2 ->
  attempts c (log s) ++ option_list (waiting s c) = broadcasts l2.
Proof.
  intros Hr E Hn. destruct (served_ok marshal s c Hr l1 l2 E) as (_ & _ & S3 & S4 & S5).
  destruct (decide (c ∈ clients s)) as [Hc|Hc].
  - destruct (S4 Hc) as (_ & B). rewrite <- pending_waiting, E, attempts_app, S3. exact B.
  - destruct (S5 Hc) as (a & b & -> & _). exfalso. apply Hn, elem_of_app. right. left.
Qed.
Print Assumptions C43_attempts.

(** A client that has been removed was written every line broadcast while it was
    registered, and nothing later. *)
Theorem C43_removed marshal s c l1 a b :
  reachable marshal s -> log s = l1 ++ OAdd c :: a ++ ORemove c :: b -> attempts c (log s) = broadcasts a.
Proof.
  intros Hr E. destruct (served_ok marshal s c Hr l1 _ E) as (_ & _ & S3 & S4 & S5).
  destruct (decide (c ∈ clients s)) as [Hc|Hc].
  - destruct (S4 Hc) as (B & _). exfalso. apply B, elem_of_app. right. left.
  - destruct (S5 Hc) as (a' & b' & E' & B1 & B2 & B3 & B4).
    destruct (cut_unique _ _ _ _ _ E' B1 B2) as (-> & ->).
    rewrite E, attempts_app, S3. change (OAdd c :: a' ++ ORemove c :: b') with ([OAdd c] ++ a' ++ [ORemove c] ++ b').
    rewrite !attempts_app, B3, B4. cbn. apply app_nil_r.
Qed.
Print Assumptions C43_removed.

(** Nobody else is written to, a client is added once, and only one with a
    failed write is ever removed or hung up on. *)
Theorem C43_clients marshal s c :
  reachable marshal s ->
  (OAdd c ∉ log s -> attempts c (log s) = [])
  /\ (forall l1 l2, log s = l1 ++ OAdd c :: l2 -> attempts c l1 = [] /\ OAdd c ∉ l1 /\ OAdd c ∉ l2)
  /\ (ORemove c ∈ log s \/ OHangup c ∈ log s -> has_failed c (log s)).
Proof.
  intros Hr. destruct (clients_ok marshal s Hr) as (_ & _ & _ & A4 & _).
  destruct (failed_ok marshal s Hr) as (_ & _ & F3 & F4).
  split; [exact (A4 c)|]. split.
  - intros l1 l2 E. destruct (served_ok marshal s c Hr l1 l2 E) as (S1 & S2 & S3 & _). split; [exact S3|]. split; [exact S1 | exact S2].
  - intros [H|H]; [exact (F3 c H) | exact (F4 c H)].
Qed.
Print Assumptions C43_clients.

(** A client no write to which has failed has received, byte by byte, all that
    was broadcast since it was added, whatever happened to other clients. *)
Theorem C43_received marshal s c l1 l2 :
  reachable marshal s -> log s = l1 ++ OAdd c :: l2 -> ~ has_failed c (log s) ->
  received c (log s) ++ concat (option_list (waiting s c)) = concat (broadcasts l2).
Proof.
  intros Hr E Hf. rewrite (received_all _ _ Hf), <- concat_app. f_equal.
  apply (C43_attempts marshal s c l1 l2 Hr E). intros X. apply Hf.
  destruct (failed_ok marshal s Hr) as (_ & _ & F3 & _). apply F3. rewrite E. apply elem_of_app. right. right. exact X.
Qed.
Print Assumptions C43_received.

(** If nothing more arrives at a client once a write to it has failed, it has
    received a gap-free segment of the lines broadcast since it was added,
    possibly followed by a part of the next line. *)
Theorem C43_segment marshal s c l1 l2 :
  reachable marshal s -> log s = l1 ++ OAdd c :: l2 -> steady c (log s) ->
  exists k part, received c (log s) = concat (firstn k (broadcasts l2)) ++ part
    /\ (part = [] \/ exists line, broadcasts l2 !! k = Some line /\ part `prefix_of` line).
Proof.
  intros Hr E Hst. destruct (received_steady _ _ Hst) as (k & part & Ek & Hp).
  assert (P : exists rest, broadcasts l2 = attempts c (log s) ++ rest).
  { destruct (served_ok marshal s c Hr l1 l2 E) as (_ & _ & _ & S4 & S5).
    destruct (decide (c ∈ clients s)) as [Hc|Hc].
    - exists (option_list (waiting s c)). symmetry. exact (C43_attempts marshal s c l1 l2 Hr E (proj1 (S4 Hc))).
    - destruct (S5 Hc) as (a & b & -> & _). exists (broadcasts (ORemove c :: b)).
      rewrite (C43_removed marshal s c l1 a b Hr E). apply broadcasts_app. }
  destruct P as (rest & ->).
  destruct (decide (k <= length (attempts c (log s)))) as [Hk|Hk].
  - exists k, part. rewrite firstn_app. replace (k - length (attempts c (log s))) with 0 by lia. cbn. rewrite app_nil_r.
    split; [exact Ek|]. destruct Hp as [Hp|(line & Hl & Hp)]; [left; exact Hp|]. right. exists line. split; [|exact Hp].
    apply lookup_app_l_Some. exact Hl.
  - exists (length (attempts c (log s))), part. rewrite firstn_app, Nat.sub_diag, firstn_all. cbn. rewrite app_nil_r.
    rewrite (firstn_all2 (n := k)) in Ek by lia. split; [exact Ek|].
    destruct Hp as [Hp|(line & Hl & _)]; [left; exact Hp|]. apply lookup_lt_Some in Hl. exfalso. apply Hk, Nat.lt_le_incl. exact Hl.
Qed.
Print Assumptions C43_segment.

(** ** A concrete run *)
Definition name (e : flow_event) : option bytes := if bytes_eqb (fe_uuid e) (str "bad") then None else Some (fe_uuid e).
Definition ev (s : string) : flow_event := flow_deleted 0 (str s).
Definition ln (s : string) : bytes := str s ++ [x0a].

Ltac nohangup := let X := fresh in intros X; repeat (apply elem_of_cons in X as [X|X]; [discriminate X|]); inversion X.
Ltac go c := eapply rtc_l; [apply by_server; [reflexivity | c] |]; cbn -[str]; try change (elements _) with [0].
Ltac out c := eapply rtc_l; [apply by_outside; [reflexivity | c] |]; cbn -[str].

(** Client 0 gets the line a, the write of b fails, and before
    the client is removed c is broadcast and the write succeeds. *)
Definition gap_log : list obs :=
  [OAdd 0; OSubmit (ev "a"); OSubmit (ev "b"); OSubmit (ev "c"); OBroadcast (ln "a"); OWrite 0 (ln "a") None;
   OBroadcast (ln "b"); OWrite 0 (ln "b") (Some 0); OBroadcast (ln "c"); OWrite 0 (ln "c") None].
Definition gap_state : state :=
  mkst false [] false false ({[0]} ∪ ∅) (NSend (ln "c") []) STest CWait [0] [0] 1 false gap_log.
Lemma gap_reachable : reachable name gap_state.
Proof.
  unfold reachable, init.
  go ltac:(apply s_continue; reflexivity).
  out ltac:(apply o_accept; reflexivity).
  go ltac:(eapply s_add; [reflexivity | exact I]).
  out ltac:(apply (o_submit _ (ev "a")); [reflexivity | vm_compute; lia]).
  out ltac:(apply (o_submit _ (ev "b")); [reflexivity | vm_compute; lia]).
  out ltac:(apply (o_submit _ (ev "c")); [reflexivity | vm_compute; lia]).
  go ltac:(apply n_continue; reflexivity).
  go ltac:(eapply (n_event name _ (ev "a")); [reflexivity | reflexivity | vm_compute; reflexivity]).
  go ltac:(eapply n_lock; reflexivity).
  go ltac:(apply (n_write name _ (ln "a") [] 0 []); [vm_compute; reflexivity | nohangup]).
  go ltac:(eapply n_unlock; reflexivity).
  go ltac:(apply n_continue; reflexivity).
  go ltac:(eapply (n_event name _ (ev "b")); [reflexivity | reflexivity | vm_compute; reflexivity]).
  go ltac:(eapply n_lock; reflexivity).
  go ltac:(apply (n_fail name _ (ln "b") [] 0 [] 0); [vm_compute; reflexivity | lia | reflexivity]).
  go ltac:(eapply n_unlock; reflexivity).
  go ltac:(apply n_continue; reflexivity).
  go ltac:(eapply (n_event name _ (ev "c")); [reflexivity | reflexivity | vm_compute; reflexivity]).
  go ltac:(eapply n_lock; reflexivity).
  go ltac:(apply (n_write name _ (ln "c") [] 0 []); [vm_compute; reflexivity | nohangup]).
  apply rtc_refl.
Qed.

(** Without [steady] there can be a gap: client 0 has received lines 1 and 3. *)
Theorem C43_gap_refuted :
  ~ (forall marshal s c l1 l2, reachable marshal s -> log s = l1 ++ OAdd c :: l2 ->
       exists k part, received c (log s) = concat (firstn k (broadcasts l2)) ++ part
         /\ (part = [] \/ exists line, broadcasts l2 !! k = Some line /\ part `prefix_of` line)).
Proof.
  intros H. destruct (H name gap_state 0 [] (tail gap_log) gap_reachable eq_refl) as (k & part & E & Hp).
  change (broadcasts (tail gap_log)) with [ln "a"; ln "b"; ln "c"] in *.
  change (received 0 (log gap_state)) with (ln "a" ++ ln "c") in E.
  destruct k as [|[|[|k]]].
  - cbn in E. subst part. destruct Hp as [Hp|(line & Hl & (r & Hp))]; [discriminate Hp|]. injection Hl as <-. discriminate Hp.
  - cbn in E. destruct Hp as [->|(line & Hl & (r & Hp))]; [discriminate E|]. injection Hl as <-. injection E as <-. discriminate Hp.
  - cbn in E. discriminate E.
  - cbn in E. rewrite firstn_nil in E. discriminate E.
Qed.
Print Assumptions C43_gap_refuted.

(** The hypotheses of the theorems above in this run: up to the failure the
    client is steady and has everything. *)
Example C43_example : attempts 0 gap_log = [ln "a"; ln "b"; ln "c"] /\ broadcasts (tail gap_log) = [ln "a"; ln "b"; ln "c"]
  /\ received 0 (firstn 7 gap_log) = ln "a" /\ ~ has_failed 0 (firstn 7 gap_log) /\ steady 0 (firstn 9 gap_log).
Proof.
  split; [reflexivity|]. split; [reflexivity|]. split; [reflexivity|]. split.
  - intros (line & n & H). cbn in H. repeat (apply elem_of_cons in H as [H|H]; [discriminate H|]). inversion H.
  - intros l1 line n l2 E. cbn in E.
    do 7 (destruct l1 as [|? l1]; [discriminate E|]; injection E as _ E).
    destruct l1 as [|? l1]; [injection E as _ _ <-; reflexivity|]. injection E as _ E.
    destruct l1 as [|? l1]; [discriminate E|]. injection E as _ E. destruct l1; discriminate E.
Qed.

(** ** C44: order, shutdown *)

(** The line of an event: its JSON and a newline. *)
Definition event_line (marshal : flow_event -> option bytes) (e : flow_event) : option bytes :=
  match marshal e with Some d => Some (d ++ [x0a]) | None => None end.

(** The lines broadcast are those of the submitted events, in the order they
    were submitted and once each; those missing are the one notifyClients has
    just taken and those still in the channel. *)
Theorem C44_order marshal s :
  reachable marshal s ->
  exists taken, omap (event_line marshal) (submitted (log s)) = broadcasts (log s) ++ taken ++ omap (event_line marshal) (buf s)
    /\ length taken <= 1 /\ length (buf s) <= 100.
Proof.
  intros Hr. exists (in_hand (np s)). split; [exact (order_ok marshal s Hr)|].
  split; [destruct (np s); cbn; lia|].
  revert s Hr. apply (invariant marshal); [cbn; lia|].
  intros s s' _ A [s1 _ H|s1 _ H]; destruct H; cbn [buf add_log set_np set_buf set_tasks set_clients set_next set_sp set_cp set_closed set_lclosed set_cancelled set_crashed]; try exact A.
  - rewrite H0 in A. cbn in A. lia.
  - rewrite H0 in A. cbn in A. lia.
  - unfold capacity in H0. rewrite app_length. cbn. lia.
Qed.
Print Assumptions C44_order.

(** The listener and the channel are closed at most once, only after the
    cancellation, and exactly once when the server has finished. *)
Theorem C44_closed_once marshal s :
  reachable marshal s ->
  times is_close_listener (log s) <= 1 /\ times is_close_chan (log s) <= 1
  /\ (times is_close_listener (log s) + times is_close_chan (log s) > 0 -> cancelled s = true)
  /\ (finished s -> times is_close_listener (log s) = 1 /\ times is_close_chan (log s) = 1).
Proof.
  intros Hr. destruct (close_ok marshal s Hr) as (_ & A). unfold finished.
  destruct (cp s).
  - destruct A as (A1 & A2 & A3 & A4). rewrite A3, A4. split; [lia|]. split; [lia|]. split; [lia|]. intros (_ & _ & X & _); discriminate X.
  - destruct A as (A1 & A2 & A3 & A4 & A5). rewrite A4, A5. split; [lia|]. split; [lia|]. split; [lia|]. intros (_ & _ & X & _); discriminate X.
  - destruct A as (A1 & A2 & A3 & A4 & A5). rewrite A4, A5. split; [lia|]. split; [lia|]. split; [intros _; exact A1|]. intros (_ & _ & X & _); discriminate X.
  - destruct A as (A1 & A2 & A3 & A4 & A5). rewrite A4, A5. split; [lia|]. split; [lia|]. split; [intros _; exact A1|]. intros _; split; reflexivity.
Qed.
Print Assumptions C44_closed_once.

(** Executions, with the number of steps of the server. *)
Inductive runs (marshal : flow_event -> option bytes) : nat -> state -> state -> Prop :=
| runs_0 s : runs marshal 0 s s
| runs_server n s s' s'' : runs marshal n s s' -> crashed s' = false -> server marshal s' s'' -> runs marshal (S n) s s''
| runs_outside n s s' s'' : runs marshal n s s' -> crashed s' = false -> outside s' s'' -> runs marshal n s s''.

(** After the cancellation, whatever the callers and the clients do, the server
    makes at most a fixed number of steps; and until all its goroutines have
    returned it always can make one. *)
Theorem C44_stops marshal s :
  reachable marshal s -> cancelled s = true ->
  exists bound, forall n s', runs marshal n s s' ->
    n <= bound /\ (finished s' \/ crashed s' = true \/ exists s'', step marshal s' s'' /\ server marshal s' s'').
Proof.
  intros Hr Hc. exists (measure s). intros n s' H.
  assert (G : n + measure s' <= measure s /\ cancelled s' = true /\ reachable marshal s').
  { induction H as [s|n s s' s'' H IH Hk Hs|n s s' s'' H IH Hk Hs].
    - split; [lia|]. split; assumption.
    - destruct (IH Hr Hc) as (B1 & B2 & B3). destruct (server_decreases marshal s' s'' B2 Hs) as (C1 & C2).
      split; [lia|]. split; [exact C2|]. eapply rtc_r; [exact B3|]. apply by_server; assumption.
    - destruct (IH Hr Hc) as (B1 & B2 & B3). destruct (outside_keeps s' s'' B2 Hs) as (C1 & C2).
      split; [lia|]. split; [exact C2|]. eapply rtc_r; [exact B3|]. apply by_outside; assumption. }
  destruct G as (G1 & G2 & G3). split; [lia|].
  destruct (crashed s') eqn:Ek; [right; left; reflexivity|].
  assert (D : finished s' \/ ~ finished s').
  { unfold finished. destruct (np s'), (sp s'), (cp s'), (removers s'), (closers s'); try (left; repeat split; reflexivity); right; intros (X1 & X2 & X3 & X4 & X5); discriminate. }
  destruct D as [D|D]; [left; exact D|]. right; right.
  destruct (server_goes_on marshal s' G3 G2 D) as (s'' & Hs). exists s''. split; [apply by_server; assumption | exact Hs].
Qed.
Print Assumptions C44_stops.

(** The process panics only if an event is submitted after the channel was
    closed, hence after the cancellation; and then every submission does. *)
Theorem C44_panic marshal s :
  reachable marshal s ->
  (crashed s = true -> OCloseChan ∈ log s /\ cancelled s = true)
  /\ (OCloseChan ∈ log s -> crashed s = false ->
      (exists s', step marshal s s' /\ outside s s' /\ crashed s' = true)
      /\ forall s', step marshal s s' -> submitted (log s') = submitted (log s)).
Proof.
  intros Hr. destruct (close_ok marshal s Hr) as (A0 & A). rewrite chan_seen. split.
  - intros Hk. specialize (A0 Hk). destruct (cp s); destruct A as (A1 & A2 & A3 & A4); try congruence.
    destruct A4 as (A4 & A5). split; [lia | exact A1].
  - intros Hn Hk. assert (Hcl : closed s = true).
    { destruct (cp s); destruct A as (A1 & A2 & A3 & A4); try lia. exact A2. }
    split.
    + exists (set_crashed s). split; [|split; [|reflexivity]]; [apply by_outside; [exact Hk|]|]; apply (o_panic s (flow_deleted 0 [])); exact Hcl.
    + intros s' [s1 _ H|s1 _ H]; destruct H; cbn [log add_log set_np set_buf set_tasks set_clients set_next set_sp set_cp set_closed set_lclosed set_cancelled set_crashed];
        rewrite ?submitted_snoc, ?app_nil_r; try reflexivity. congruence.
Qed.
Print Assumptions C44_panic.

(** A cancellation with an event in the channel and a client connected, and all
    goroutines returned: the event is lost and the client is not hung up on. *)
Definition lost_log : list obs := [OAdd 0; OSubmit (ev "a"); OCloseListener; OCloseChan].
Definition lost_state : state := mkst true [ev "a"] true true ({[0]} ∪ ∅) NEnd SEnd CEnd [] [] 1 false lost_log.
Lemma lost_reachable : reachable name lost_state.
Proof.
  unfold reachable, init.
  go ltac:(apply s_continue; reflexivity).
  out ltac:(apply o_accept; reflexivity).
  go ltac:(eapply s_add; [reflexivity | exact I]).
  out ltac:(apply (o_submit _ (ev "a")); [reflexivity | vm_compute; lia]).
  out ltac:(apply o_cancel).
  go ltac:(apply n_end; reflexivity).
  go ltac:(apply s_end; reflexivity).
  go ltac:(apply c_wait; reflexivity).
  go ltac:(apply c_listener; reflexivity).
  go ltac:(apply c_chan; reflexivity).
  apply rtc_refl.
Qed.
Lemma lost_finished : finished lost_state.
Proof. repeat split. Qed.

Theorem C44_lost_refuted :
  ~ (forall marshal s, reachable marshal s -> finished s -> broadcasts (log s) = omap (event_line marshal) (submitted (log s))).
Proof. intros H. specialize (H name lost_state lost_reachable lost_finished). discriminate H. Qed.
Print Assumptions C44_lost_refuted.

Theorem C44_hangup_refuted :
  ~ (forall marshal s c, reachable marshal s -> finished s -> OAdd c ∈ log s -> OHangup c ∈ log s).
Proof.
  intros H. specialize (H name lost_state 0 lost_reachable lost_finished (elem_of_list_here _ _)).
  cbn in H. repeat (apply elem_of_cons in H as [H|H]; [discriminate H|]). inversion H.
Qed.
Print Assumptions C44_hangup_refuted.

Theorem C44_no_panic_refuted : ~ (forall marshal s, reachable marshal s -> crashed s = false).
Proof.
  intros H. assert (R : reachable name (set_crashed lost_state)).
  { eapply rtc_r; [exact lost_reachable|]. apply by_outside; [reflexivity|]. apply (o_panic _ (ev "b")). reflexivity. }
  specialize (H _ _ R). discriminate H.
Qed.
Print Assumptions C44_no_panic_refuted.

(** An event that cannot be marshalled is skipped. *)
Example C44_bad_event : event_line name (ev "bad") = None /\ event_line name (ev "x") = Some (ln "x").
Proof. split; reflexivity. Qed.
