(** C78: an event server that is left to itself catches up. *)
From Coq Require Import Strings.String.
From stdpp Require Import gmap.
From Coq Require Import NArith ZArith Lia.
From Verif Require Import GoBase EventServer SpecEvents EventFacts CatchUp P_Events.
Local Open Scope list_scope.

(** The server by itself: nobody submits, connects or cancels. *)
Inductive alone (marshal : flow_event -> option bytes) : nat -> state -> state -> Prop :=
| al_0 s : alone marshal 0 s s
| al_S n s s' s'' : alone marshal n s s' -> server marshal s' s'' -> alone marshal (S n) s s''.

(** Everything that was submitted and can be written as a line has been broadcast.
    Every connection that was accepted has been registered; it has received what was
    broadcast since, or a write to it failed, and then it is no longer registered and
    was hung up on.  Serve waits for the next connection. *)
Definition caught_up (marshal : flow_event -> option bytes) (s : state) : Prop :=
  broadcasts (log s) = omap (event_line marshal) (submitted (log s)) /\ sp s = SAccept /\ lclosed s = false /\
  forall c, c < next s -> exists l1 l2, log s = l1 ++ OAdd c :: l2 /\
    (~ has_failed c (log s) /\ c ∈ clients s /\ received c (log s) = concat (broadcasts l2) \/
     has_failed c (log s) /\ c ∉ clients s /\ ORemove c ∈ l2 /\ OHangup c ∈ log s).

(** It makes a bounded number of steps, and can make one until it has caught up. *)
Theorem C78_catches_up marshal s : reachable marshal s -> cancelled s = false ->
  exists bound, forall n s', alone marshal n s s' ->
    n <= bound /\ submitted (log s') = submitted (log s) /\ next s' = next s /\ ((exists s'', server marshal s' s'') \/ caught_up marshal s').
Proof.
  intros Hr Hc. exists (work s). intros n s' H.
  assert (G : n + work s' <= work s /\ reachable marshal s' /\ cancelled s' = false /\ submitted (log s') = submitted (log s) /\ next s' = next s).
  { induction H as [s|n s s' s'' H IH Hs]; [repeat split; auto|]. destruct (IH Hr Hc) as (B1 & B2 & B3 & B4 & B5).
    destruct (work_decreases marshal s' s'' B2 B3 Hs) as [D1 D2]. destruct (open_state marshal s' B2 B3) as (_ & _ & _ & _ & _ & K).
    split; [lia|]. split; [eapply rtc_r; [exact B2|by apply by_server]|]. split; [exact D2|].
    destruct Hs; cbn -[elements]; rewrite ?submitted_snoc, ?app_nil_r; by split. }
  destruct G as (G1 & G2 & G3 & G4 & G5). split; [lia|]. split; [exact G4|]. split; [exact G5|].
  destruct (moves marshal s' G2 G3) as [M|(M1 & M2 & M3 & M4 & M5)]; [by left|right].
  destruct (open_state marshal s' G2 G3) as (_ & _ & O & _).
  split. { pose proof (order_ok marshal s' G2) as A. unfold inv_order in A. rewrite M1, M2 in A. cbn in A. rewrite app_nil_r in A. symmetry. exact A. }
  split; [exact M3|]. split; [exact O|]. intros c Hn. destruct (added_ok marshal s' G2 c Hn) as [I|I]; [|congruence].
  apply elem_of_list_split in I as (l1 & l2 & E). exists l1, l2. split; [exact E|].
  destruct (served_ok marshal s' c G2 l1 l2 E) as (_ & _ & S3 & S4 & S5). destruct (decide (c ∈ clients s')) as [Hi|Hi].
  - assert (F : ~ has_failed c (log s')). { intros F. destruct (failing_ok marshal s' G2 c F) as [[X|X] _]; [rewrite M4 in X; inversion X|contradiction]. }
    left. split; [exact F|]. split; [exact Hi|]. pose proof (C43_received marshal s' c l1 l2 G2 E F) as R. unfold waiting in R. rewrite M1 in R. cbn in R.
    rewrite app_nil_r in R. exact R.
  - right. destruct (S5 Hi) as (a & b & E2 & _). assert (Rm : ORemove c ∈ l2) by (rewrite E2; apply elem_of_app; right; left).
    assert (F : has_failed c (log s')). { apply (C43_clients marshal s' c G2). left. rewrite E. apply elem_of_app. right. right. exact Rm. }
    split; [exact F|]. split; [exact Hi|]. split; [exact Rm|]. destruct (failing_ok marshal s' G2 c F) as [_ [X|X]]; [rewrite M5 in X; inversion X|exact X].
Qed.
Print Assumptions C78_catches_up.

(** Hence there is a way to catch up from anywhere. *)
Theorem C78_possible marshal s : reachable marshal s -> cancelled s = false -> exists n s', alone marshal n s s' /\ caught_up marshal s'.
Proof.
  intros Hr Hc. destruct (C78_catches_up marshal s Hr Hc) as (bound & H).
  assert (X : forall k n s', n + k = S bound -> alone marshal n s s' -> exists n' s'', alone marshal n' s s'' /\ caught_up marshal s'').
  { induction k as [|k IH]; intros n s' E A; destruct (H n s' A) as (B & _ & _ & [(s'' & M)|C]); try lia; try (by exists n, s').
    apply (IH (S n) s''); [lia|]. econstructor; eauto. }
  apply (X (S bound) 0 s); [lia|constructor].
Qed.
Print Assumptions C78_possible.

(** ** What a client receives *)
Lemma step_log marshal s s' : step marshal s s' -> log s' = log s \/ exists o, log s' = log s ++ [o].
Proof. intros [s1 _ H|s1 _ H]; destruct H; cbn -[elements]; eauto. Qed.
Lemma earlier_log marshal s : reachable marshal s -> forall l1 l2, log s = l1 ++ l2 -> exists s0, reachable marshal s0 /\ log s0 = l1.
Proof.
  revert s. apply (invariant marshal (fun s => forall l1 l2, log s = l1 ++ l2 -> exists s0, reachable marshal s0 /\ log s0 = l1)).
  - intros l1 l2 E. cbn in E. symmetry in E. apply app_eq_nil in E as [-> _]. exists init. split; [apply rtc_refl|done].
  - intros s s' Hr IH Hs l1 l2 E. destruct (step_log marshal s s' Hs) as [X|[o X]]; rewrite X in E; [by apply (IH l1 l2)|].
    destruct l2 as [|z l2 _] using rev_ind.
    + rewrite app_nil_r in E. exists s'. split; [eapply rtc_r; eauto|congruence].
    + rewrite app_assoc in E. apply app_inj_tail in E as [E _]. exact (IH _ _ E).
Qed.

(** A registered client no write to which has failed has received the lines of all
    events submitted since its registration, in order, after those of the at most 101
    events that were on their way when it was registered; and nothing else. *)
Theorem C78_received marshal s c l1 l2 : reachable marshal s -> caught_up marshal s -> log s = l1 ++ OAdd c :: l2 -> ~ has_failed c (log s) ->
  exists earlier, broadcasts l1 ++ earlier = omap (event_line marshal) (submitted l1) /\ length earlier <= 101 /\
    received c (log s) = concat (earlier ++ omap (event_line marshal) (submitted l2)).
Proof.
  intros Hr (C1 & _ & _ & C4) E F. destruct (earlier_log marshal s Hr l1 _ E) as (s0 & R0 & E0).
  destruct (C44_order marshal s0 R0) as (taken & T1 & T2 & T3). rewrite E0 in T1. exists (taken ++ omap (event_line marshal) (buf s0)).
  split; [symmetry; exact T1|]. split.
  { rewrite app_length. assert (length (omap (event_line marshal) (buf s0)) <= length (buf s0)); [|lia].
    generalize (buf s0). intros l. induction l as [|e l IH]; cbn; [lia|]. destruct (event_line marshal e); cbn; lia. }
  assert (Hn : c < next s). { destruct (clients_ok marshal s Hr) as (A1 & _). apply A1. cbn. rewrite E. apply elem_of_app. right. left. }
  destruct (C4 c Hn) as (a & b & E' & [(_ & _ & Rc)|(X & _)]); [|contradiction].
  destruct (proj1 (proj2 (C43_clients marshal s c Hr)) l1 l2 E) as (_ & N1 & N2). rewrite E in E'. symmetry in E'.
  destruct (cut_unique (OAdd c) a b l1 l2 E' N1 N2) as [-> ->]. rewrite Rc. f_equal. rewrite E in C1.
  change (OAdd c :: l2) with ([OAdd c] ++ l2) in C1. unfold submitted in C1. rewrite !broadcasts_app, !omap_app in C1. cbn [omap list_omap app] in C1.
  change (omap (λ o : obs, match o with OSubmit e => Some e | _ => None end) l1) with (submitted l1) in C1.
  change (omap (λ o : obs, match o with OSubmit e => Some e | _ => None end) l2) with (submitted l2) in C1.
  rewrite T1, <- app_assoc in C1. apply app_inv_head in C1. exact C1.
Qed.
Print Assumptions C78_received.

(** ** Cases *)
(** A server whose only client is still registered though a write to it has failed. *)
Example c78_behind : reachable name gap_state /\ cancelled gap_state = false /\ has_failed 0 (log gap_state) /\ 0 ∈ clients gap_state.
Proof.
  split; [exact gap_reachable|]. split; [done|]. split; [|cbn; set_solver]. exists (ln "b"), 0. unfold gap_state, gap_log. cbn -[ln ev].
  do 7 right. left.
Qed.
(** One that has caught up: a was submitted before the client was registered, b after. *)
Definition even_log : list obs :=
  [OSubmit (ev "a"); OAdd 0; OSubmit (ev "b"); OBroadcast (ln "a"); OWrite 0 (ln "a") None; OBroadcast (ln "b"); OWrite 0 (ln "b") None].
Definition even_state : state := mkst false [] false false ({[0]} ∪ ∅) NRecv SAccept CWait [] [] 1 false even_log.
Example c78_even : reachable name even_state.
Proof.
  unfold reachable, init.
  go ltac:(apply s_continue; reflexivity).
  out ltac:(apply o_accept; reflexivity).
  out ltac:(apply (o_submit _ (ev "a")); [reflexivity | vm_compute; lia]).
  go ltac:(eapply s_add; [reflexivity | exact I]).
  out ltac:(apply (o_submit _ (ev "b")); [reflexivity | vm_compute; lia]).
  go ltac:(apply n_continue; reflexivity).
  go ltac:(eapply (n_event name _ (ev "a")); [reflexivity | reflexivity | vm_compute; reflexivity]).
  go ltac:(eapply n_lock; reflexivity).
  go ltac:(apply (n_write name _ (ln "a") [] 0 []); [vm_compute; reflexivity | nohangup]).
  go ltac:(eapply n_unlock; reflexivity).
  go ltac:(apply n_continue; reflexivity).
  go ltac:(eapply (n_event name _ (ev "b")); [reflexivity | reflexivity | vm_compute; reflexivity]).
  go ltac:(eapply n_lock; reflexivity).
  go ltac:(apply (n_write name _ (ln "b") [] 0 []); [vm_compute; reflexivity | nohangup]).
  go ltac:(eapply n_unlock; reflexivity).
  go ltac:(apply n_continue; reflexivity).
  go ltac:(apply s_continue; reflexivity).
  apply rtc_refl.
Qed.
Example c78_received : caught_up name even_state /\ received 0 even_log = ln "a" ++ ln "b".
Proof.
  split; [|vm_compute; reflexivity]. split; [vm_compute; reflexivity|]. split; [done|]. split; [done|]. intros c Hc. assert (c = 0) as -> by (cbn in Hc; lia).
  exists [OSubmit (ev "a")], [OSubmit (ev "b"); OBroadcast (ln "a"); OWrite 0 (ln "a") None; OBroadcast (ln "b"); OWrite 0 (ln "b") None].
  split; [done|]. left. split; [|split; [cbn; set_solver|vm_compute; reflexivity]].
  intros (line & n & X). unfold even_state, even_log in X. cbn -[ln ev] in X. repeat (apply elem_of_cons in X as [X|X]; [discriminate X|]). inversion X.
Qed.
