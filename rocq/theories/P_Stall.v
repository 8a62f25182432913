(** Property C58: an event client that stops reading. *)
From Coq Require Import Strings.String.
From stdpp Require Import gmap relations.
From Coq Require Import NArith ZArith Lia.
From Verif Require Import GoBase GoTime Inetdiag Netlink SpecNetlink SpecCompare Cache Saver SpecSaver SaverReports
  System SpecSystem SystemInv SystemRefine SystemEnd SystemHidden Samples P_Saver P_System Program SpecProgram ProgramFacts ProgramEnd ProgramRuns ProgramEvents P_Program.
From Verif Require Import EventServer SpecEvents EventFacts EventClient SpecStall Stall.
From Verif Require Collector SpecCollector CollectorFacts.
Local Open Scope list_scope.

(** While a write to the client c does not return: no further event is sent to any
    client, no client is added or removed, and the goroutines of the server do not
    all end, even if ctx is done. *)
Theorem C58_nobody_is_told : forall w cf cap anon line hline v reps on marshal c ln g g',
  waiting (g_srv g) c = Some ln -> stalled w cf cap anon line hline v reps on marshal c g g' ->
  waiting (g_srv g') c = Some ln /\ broadcasts (log (g_srv g')) = broadcasts (log (g_srv g)) /\
  List.filter comes_or_goes (log (g_srv g')) = List.filter comes_or_goes (log (g_srv g)) /\ ~ EventServer.finished (g_srv g').
Proof.
  intros w cf cap anon line hline v reps on marshal c ln g g' Hw H.
  destruct (stalled_holds w cf cap anon line hline v reps on marshal c ln g g' Hw H) as (A & B & C & _). split; [exact A|]. split; [exact B|]. split; [exact C|].
  intros (N & _). unfold waiting in A. rewrite N in A. discriminate A.
Qed.
Print Assumptions C58_nobody_is_told.

(** And the saver gets at most 100 events further, less those that were waiting
    already. *)
Theorem C58_backlog : forall w cf cap anon line hline v reps marshal c ln g g',
  possible w cf cap anon line hline v reps true marshal g -> waiting (g_srv g) c = Some ln ->
  stalled w cf cap anon line hline v reps true marshal c g g' ->
  length (reports (uuid_prefix w) (executed (g_sys g'))) <= length (reports (uuid_prefix w) (executed (g_sys g))) + (100 - length (buf (g_srv g))).
Proof. intros w cf cap anon line hline v reps marshal c ln g g' Hp Hw H. exact (stalled_reports w cf cap anon line hline v reps true marshal c ln g g' eq_refl Hp Hw H). Qed.
Print Assumptions C58_backlog.

(** So main only returns if no more events than that are left. *)
Theorem C58_exit : forall w cf cap anon line hline v reps marshal c ln, (forall x, length (anon x) = length x) -> 1 <= nmarsh cf -> forall g g',
  possible w cf cap anon line hline v reps true marshal g -> waiting (g_srv g) c = Some ln ->
  stalled w cf cap anon line hline v reps true marshal c g g' -> g_main g' = MExit ->
  fair_order w -> all_comparable cf (g_sent g') -> Forall (parses cf) (g_sent g') ->
  length (reports (uuid_prefix w) (s_log (message_saver_loop w cf (g_sent g')))) <=
  length (reports (uuid_prefix w) (executed (g_sys g))) + (100 - length (buf (g_srv g))).
Proof.
  intros w cf cap anon line hline v reps marshal c ln Hl Hn g g' Hp Hw H Hm Hf Hc Hpar.
  pose proof (stalled_possible w cf cap anon line hline v reps true marshal c g g' Hp H) as Hp'.
  destruct (after_exit w cf cap anon line hline v reps true marshal Hl Hn g' Hp' Hm Hf Hc Hpar) as (En & _ & F).
  pose proof (full_reachable w cf cap anon line hline v reps true marshal g' Hp') as R. unfold full in R. rewrite En in R.
  destruct F as (_ & Jb & Pc & _).
  rewrite <- (log_final w cf cap anon line hline Hl Hn (g_sent g') Hc _ R (or_introl Jb)), <- (executed_all _ Pc).
  exact (stalled_reports w cf cap anon line hline v reps true marshal c ln g g' eq_refl Hp Hw H).
Qed.
Print Assumptions C58_exit.

(** When 100 events are waiting and the saver has another one, and ctx is not done:
    the saver does nothing more, at most two more blocks are collected, and main
    does not return. *)
Theorem C58_collection_stops : forall w cf cap anon line hline v reps marshal c ln, (forall x, length (anon x) = length x) -> 1 <= nmarsh cf -> forall g g' a,
  possible w cf cap anon line hline v reps true marshal g -> waiting (g_srv g) c = Some ln -> length (buf (g_srv g)) = 100 ->
  s_log (y_saver (g_sys g)) !! y_pc (g_sys g) = Some a -> reports (uuid_prefix w) [a] <> [] ->
  stalled w cf cap anon line hline v reps true marshal c g g' -> cancelled (g_srv g') = false ->
  executed (g_sys g') = executed (g_sys g) /\ length (g_sent g') <= length (g_sent g) + 2 /\
  (fair_order w -> all_comparable cf (g_sent g') -> Forall (parses cf) (g_sent g') -> g_main g' <> MExit).
Proof.
  intros w cf cap anon line hline v reps marshal c ln Hl Hn g g' a Hp Hw Hb La Ha H Hcan.
  assert (Fu : full_up w g).
  { split; [rewrite Hb; unfold capacity; lia|]. exists a. destruct (event_sent (uuid_prefix w) a) as [e|] eqn:E; [by exists e|]. destruct a; try discriminate E; by destruct Ha. }
  destruct (blocked w cf cap anon line hline v reps true marshal c ln g g' eq_refl Hp Hw Fu H Hcan) as (B1 & B2 & B3 & B4).
  split; [unfold executed; by rewrite B1, B2|]. split; [exact B4|]. intros Hf Hc Hpar Hm.
  destruct (after_exit w cf cap anon line hline v reps true marshal Hl Hn g' (stalled_possible w cf cap anon line hline v reps true marshal c g g' Hp H) Hm Hf Hc Hpar) as (_ & _ & F).
  destruct F as (_ & _ & Pc & _). rewrite B1, B2 in Pc. apply lookup_lt_Some in La. lia.
Qed.
Print Assumptions C58_collection_stops.

(** ** A run for the examples: 60 connections in each of the first rounds, all
    different; the client that connects first is sent one event and does not read it. *)
Definition fresh (n : nat) : list nlmsg := map (fun k => conn_msg (N.of_nat k) 10 20) (seq (match n with 0 => 1 | 1 => 61 | 2 => 121 | _ => 181 end) 60).
Definition v60 : Collector.environment :=
  Collector.mkenv (fun n f => Collector.mksocket None (fun _ => None) (Ret 99%N) [Ret ((if N.eqb f 2 then map multi (fresh n) else []) ++ [finis])])
    (fun _ _ => 7%N) (fun n _ => ((1577836800 + Z.of_nat n) * second)%Z) (fun _ => false).
Definition play60 : list (nat * list actor) -> prog := play w0 cf0 1 anon0 line0 hline0 v60 0 true (marshal_event utc).
Definition stuck : prog := play60 (connect ++ [(5000, workers); (3, [Notify]); (5000, workers)]).
Example stuck_case : length (buf (g_srv stuck)) = 100 /\ (exists ln, waiting (g_srv stuck) 0 = Some ln) /\ cancelled (g_srv stuck) = false /\
  (exists a, s_log (y_saver (g_sys stuck)) !! y_pc (g_sys stuck) = Some a /\ reports (uuid_prefix w0) [a] <> []) /\ length (g_sent stuck) = 4.
Proof.
  split; [vm_compute; reflexivity|]. split; [eexists; vm_compute; reflexivity|]. split; [vm_compute; reflexivity|]. split; [|vm_compute; reflexivity].
  eexists. split; [vm_compute; reflexivity|discriminate].
Qed.

(** So it is not true that the program goes on collecting whatever a client of the
    event socket does. *)
Theorem C58_collection_goes_on_refuted : ~ (forall w cf cap anon line hline v marshal, (forall x, length (anon x) = length x) -> 1 <= nmarsh cf ->
  1 <= cap -> fair_order w -> answers v ->
  forall g c ln, possible w cf cap anon line hline v 0 true marshal g -> cancelled (g_srv g) = false -> waiting (g_srv g) c = Some ln ->
  exists g', stalled w cf cap anon line hline v 0 true marshal c g g' /\ cancelled (g_srv g') = false /\ length (g_sent g) + 2 < length (g_sent g')).
Proof.
  intros H. destruct stuck_case as (S1 & (ln & S2) & S3 & (a & S4 & S5) & _).
  assert (An : answers v60).
  { intros n. assert (E : exists b c, Collector.collect v60 n = Ret (b, c)).
    { assert (K : match Collector.collect v60 n with Ret _ => True | _ => False end) by (destruct n as [|[|[|n]]]; vm_compute; exact I).
      destruct (Collector.collect v60 n) as [[b c]| | |]; [|contradiction..]. by exists b, c. }
    destruct E as (b & c & E). exists b. by eapply CollectorFacts.collect_block. }
  destruct (H w0 cf0 1 anon0 line0 hline0 v60 (marshal_event utc) anon0_len ltac:(cbn; lia) ltac:(lia) (w0_fair _) An stuck 0 ln (play_possible _ _ _ _ _ _ _ _ _ _ _) S3 S2) as (g' & G1 & G2 & G3).
  destruct (C58_collection_stops w0 cf0 1 anon0 line0 hline0 v60 0 (marshal_event utc) 0 ln anon0_len ltac:(cbn; lia) stuck g' a (play_possible _ _ _ _ _ _ _ _ _ _ _) S2 S1 S4 S5 G1 G2) as (_ & K & _).
  lia.
Qed.
Print Assumptions C58_collection_goes_on_refuted.
