(** Property C79 for the whole process: main, the saver, the marshallers and the
    event server, between two polls. *)
From Coq Require Import Strings.String.
From stdpp Require Import gmap relations.
From Coq Require Import NArith ZArith Lia.
From Verif Require Import GoBase GoTime Inetdiag Netlink SpecNetlink SpecCompare Cache Saver SpecSaver System SpecSystem SpecRest
  SystemInv SystemFiles SystemRefine SystemEnd SystemHidden Samples P_Saver P_System Program SpecProgram ProgramFacts ProgramEnd ProgramRuns P_Program ProgramRest.
From Verif Require EventServer EventClient SpecEvents EventFacts Collector SpecCollector CollectorFacts.
Local Open Scope list_scope.

(** While main waits for its next poll, the saver and the marshallers make finitely
    many steps whatever the schedule, whatever the event server and its clients do;
    and if ctx is not done they can go on, the event server making room if need be,
    until they have settled. *)
Theorem C79_program_settles : forall w cf cap anon line hline v reps on marshal, (forall x, length (anon x) = length x) -> 1 <= nmarsh cf ->
  forall g n, 1 <= cap -> fair_order w -> possible w cf cap anon line hline v reps on marshal g ->
  EventServer.cancelled (g_srv g) = false -> g_main g = MLoop n ->
  all_comparable cf (g_sent g) -> Forall (parses cf) (g_sent g) ->
  (exists g', rtc (meanwhile w cf cap anon line hline v reps on marshal) g g' /\ settled w cf cap anon line hline v reps on marshal g' /\
    possible w cf cap anon line hline v reps on marshal g' /\ EventServer.cancelled (g_srv g') = false /\ g_main g' = g_main g /\ g_sent g' = g_sent g) /\
  ~ (exists f : nat -> prog, f 0 = g /\ forall k, meanwhile w cf cap anon line hline v reps on marshal (f k) (f (S k))).
Proof.
  intros w cf cap anon line hline v reps on marshal Hl Hn g n Hcap Hf Hp Hcan Hm Hc Hpar. split; [by eapply settles|].
  intros (f & E & H). apply (no_endless w cf cap anon line hline v reps on marshal f n); [by rewrite E|exact H].
Qed.
Print Assumptions C79_program_settles.

(** Once they have, every poll that was sent has been received, and the files hold,
    byte for byte, what they would hold had the program been shut down after the
    polls sent so far. *)
Theorem C79_program_files : forall w cf cap anon line hline v reps on marshal, (forall x, length (anon x) = length x) -> 1 <= nmarsh cf ->
  forall g, possible w cf cap anon line hline v reps on marshal g -> EventServer.cancelled (g_srv g) = false ->
  forall n, g_main g = MLoop n -> 1 <= cap -> fair_order w -> all_comparable cf (g_sent g) -> Forall (parses cf) (g_sent g) ->
  settled w cf cap anon line hline v reps on marshal g ->
  g_chan g = [] /\ length (g_sent g) = n /\
  forall wr, match y_files (g_sys g) !! wr with
  | Some f => f_data f = contents anon line hline wr (s_log (message_saver_loop w cf (g_sent g))) /\
              ACreate wr (f_path f) ∈ s_log (message_saver_loop w cf (g_sent g))
  | None => forall path, ACreate wr path ∉ s_log (message_saver_loop w cf (g_sent g))
  end.
Proof.
  intros w cf cap anon line hline v reps on marshal Hl Hn g Hp Hcan n Hm Hcap Hf Hc Hpar Q.
  split; [by eapply nothing_left|]. split; [|by eapply settled_state].
  destruct (invs w cf cap anon line hline v reps on marshal g Hp) as [(_ & _ & _ & _ & _ & I6) _]. by rewrite Hm in I6.
Qed.
Print Assumptions C79_program_files.

(** The run of P_Program has settled before each of its polls. *)
Definition idleb (g : prog) : bool :=
  forallb (fun m => negb (busy m)) (y_marsh (g_sys g)) && Nat.eqb (y_pc (g_sys g)) (length (s_log (y_saver (g_sys g)))) &&
  match y_jobs (g_sys g), g_chan g with [], [] => true | _, _ => false end.
Lemma idleb_settled g n : possible0 g -> g_main g = MLoop n -> idleb g = true -> settled w0 cf0 1 anon0 line0 hline0 v0 4 true (EventClient.marshal_event utc) g.
Proof.
  unfold idleb. intros Hp Hm H. apply andb_prop in H as [H J]. apply andb_prop in H as [B P].
  eapply idle_settled; [exact Hp|exact Hm|..].
  - destruct (y_jobs (g_sys g)), (g_chan g); done.
  - destruct (y_jobs (g_sys g)); done.
  - by apply Nat.eqb_eq.
  - intros q m M. apply elem_of_list_lookup_2, elem_of_list_In in M. rewrite forallb_forall in B. specialize (B m M). by destruct (busy m).
Qed.
Definition after (k : nat) : prog := play0 (connect ++ [(k, Notify :: workers)]).
Example c79_program_case : forall k n, (k, n) ∈ [(30, 1); (40, 2); (78, 3)] ->
  possible0 (after k) /\ EventServer.cancelled (g_srv (after k)) = false /\ g_main (after k) = MLoop n /\
  all_comparable cf0 (g_sent (after k)) /\ Forall (parses cf0) (g_sent (after k)) /\
  settled w0 cf0 1 anon0 line0 hline0 v0 4 true (EventClient.marshal_event utc) (after k).
Proof.
  assert (K : forall k n, EventServer.cancelled (g_srv (after k)) = false -> g_main (after k) = MLoop n -> idleb (after k) = true ->
    Forall (parses cf0) (g_sent (after k)) /\ all_comparable cf0 (g_sent (after k)) ->
    possible0 (after k) /\ EventServer.cancelled (g_srv (after k)) = false /\ g_main (after k) = MLoop n /\
    all_comparable cf0 (g_sent (after k)) /\ Forall (parses cf0) (g_sent (after k)) /\
    settled w0 cf0 1 anon0 line0 hline0 v0 4 true (EventClient.marshal_event utc) (after k)).
  { intros k n C M I [P A]. pose proof (play0_possible (connect ++ [(k, Notify :: workers)])) as Hp. repeat (split; [assumption|]). by eapply idleb_settled. }
  intros k n H. repeat (apply elem_of_cons in H as [[= -> ->]|H]); [..|by apply elem_of_nil in H].
  all: apply K; [vm_compute; reflexivity..|apply message_ok; vm_compute; reflexivity].
Qed.
(** With the third poll just sent the files are those of the second; once settled,
    the first has another record, the second has been started, and both are open. *)
Example c79_program_files_case :
  map (fun k => (g_main (after k), map (fun n => match y_files (g_sys (after k)) !! n with Some f => Some (length (f_data f), f_open f) | None => None end) [0; 1; 2])) [30; 40; 42; 78] =
  [(MLoop 1, [Some (104, true); None; None]); (MLoop 2, [Some (104, true); None; None]); (MLoop 3, [Some (104, true); None; None]);
   (MLoop 3, [Some (177, true); Some (104, true); None])].
Proof. vm_compute. reflexivity. Qed.
