(** Property C79 on disk: what lies behind the files' writers between two polls. *)
From Coq Require Import Strings.String.
From stdpp Require Import gmap relations.
From Coq Require Import NArith ZArith Lia.
From Verif Require Import GoBase GoTime Inetdiag Netlink SpecNetlink SpecCompare Cache Saver SpecSaver System SpecSystem
  SystemInv SystemFiles SystemRefine SystemEnd SystemHidden Disk SpecDisk DiskFacts Samples P_Saver P_System P_Disk
  Program SpecProgram ProgramFacts ProgramEnd ProgramRuns P_Program ProgramRest P_ProgramRest Whole SpecWhole WholeFacts P_Whole.
From Verif Require EventServer EventClient.
Local Open Scope list_scope.

(** Once saver and marshallers have settled, a file that is closed is complete on
    disk: the compressed form of what a shutdown after the polls sent would leave.
    An open file is on disk as far as its compressor has put it out. *)
Theorem C79_disk : forall w cf cap anon line hline v reps on marshal z, (forall x, length (anon x) = length x) -> 1 <= nmarsh cf ->
  forall k0 g k, run_of w cf cap anon line hline v reps on marshal z k0 (g, k) -> EventServer.cancelled (g_srv g) = false ->
  forall n, g_main g = MLoop n -> 1 <= cap -> fair_order w -> all_comparable cf (g_sent g) -> Forall (parses cf) (g_sent g) ->
  NoDup (openings (s_log (message_saver_loop w cf (g_sent g)))) ->
  settled w cf cap anon line hline v reps on marshal g ->
  forall wr f, y_files (g_sys g) !! wr = Some f ->
  d_file k (f_path f) = Some (d_out k wr) /\
  (f_open f = false -> d_file k (f_path f) = Some (z (contents anon line hline wr (s_log (message_saver_loop w cf (g_sent g)))))).
Proof.
  intros w cf cap anon line hline v reps on marshal z Hl Hn k0 g k R Hcan n Hm Hcap Hf Hc Hpar Nd Q wr f F.
  destruct (C73_meanwhile w cf cap anon line hline v reps on marshal z Hl Hn k0 g k R Hc Nd) as [D _].
  destruct (C79_program_files w cf cap anon line hline v reps on marshal Hl Hn g (run_possible _ _ _ _ _ _ _ _ _ _ _ _ _ R) Hcan n Hm Hcap Hf Hc Hpar Q) as (_ & _ & C).
  specialize (C wr). rewrite F in C. destruct C as [C _]. destruct (D wr f F) as [D1 D2]. split; [exact D1|]. intros O. rewrite <- C. by apply D2.
Qed.
Print Assumptions C79_disk.

(** After the fourth poll the first connection is gone and its file closed. *)
Example c79_disk_case : possible0 (after 99) /\ (forall z k0, exists k, run_of w0 cf0 1 anon0 line0 hline0 v0 4 true (EventClient.marshal_event utc) z k0 (after 99, k)) /\
  EventServer.cancelled (g_srv (after 99)) = false /\ g_main (after 99) = MLoop 4 /\
  all_comparable cf0 (g_sent (after 99)) /\ Forall (parses cf0) (g_sent (after 99)) /\
  NoDup (openings (s_log (message_saver_loop w0 cf0 (g_sent (after 99))))) /\
  settled w0 cf0 1 anon0 line0 hline0 v0 4 true (EventClient.marshal_event utc) (after 99) /\
  map (fun n => match y_files (g_sys (after 99)) !! n with Some f => Some (length (f_data f), f_open f) | None => None end) [0; 1] = [Some (177, false); Some (104, true)].
Proof.
  assert (P : possible0 (after 99)) by apply play0_possible. assert (M : g_main (after 99) = MLoop 4) by (vm_compute; reflexivity).
  destruct (message_ok cf0 (g_sent (after 99)) ltac:(vm_compute; reflexivity)) as [A B].
  split; [exact P|]. split; [intros z k0; by apply C73_runs|]. split; [vm_compute; reflexivity|]. split; [exact M|]. split; [exact B|]. split; [exact A|].
  split; [apply (bool_decide_unpack _); vm_compute; exact I|]. split; [apply (idleb_settled _ 4 P M); vm_compute; reflexivity|]. vm_compute. reflexivity.
Qed.

(** An open file may be behind on disk although everything has settled: nothing
    makes the compressor put out what it was given before Close. *)
Theorem C79_disk_refuted : ~ (forall w cf cap anon line hline v reps on marshal z, (forall x, length (anon x) = length x) -> 1 <= nmarsh cf ->
  forall k0 g k, run_of w cf cap anon line hline v reps on marshal z k0 (g, k) -> EventServer.cancelled (g_srv g) = false ->
  forall n, g_main g = MLoop n -> 1 <= cap -> fair_order w -> all_comparable cf (g_sent g) -> Forall (parses cf) (g_sent g) ->
  NoDup (openings (s_log (message_saver_loop w cf (g_sent g)))) ->
  settled w cf cap anon line hline v reps on marshal g ->
  forall wr f, y_files (g_sys g) !! wr = Some f ->
  d_file k (f_path f) = Some (z (contents anon line hline wr (s_log (message_saver_loop w cf (g_sent g)))))).
Proof.
  intros H. set (g := after 78).
  destruct (c79_program_case 78 3) as (P & C & M & A & B & Q); [apply (bool_decide_unpack _); vm_compute; exact I|]. fold g in P, C, M, A, B, Q.
  destruct (has_disk w0 cf0 1 anon0 line0 hline0 v0 4 true (EventClient.marshal_event utc) (fun x => x) (fun _ => None) g P) as (k & R & E).
  assert (F : match y_files (g_sys g) !! 0 with Some f => f_open f && (0 <? length (f_data f)) | None => false end = true) by (vm_compute; reflexivity).
  destruct (y_files (g_sys g) !! 0) as [f|] eqn:Ef; [|discriminate F]. apply andb_true_iff in F as [Fo Fl].
  assert (Nd : NoDup (openings (s_log (message_saver_loop w0 cf0 (g_sent g))))) by (apply (bool_decide_unpack _); vm_compute; exact I).
  assert (N1 : 1 <= nmarsh cf0) by (cbn; lia). assert (C1 : 1 <= 1) by lia.
  specialize (H _ _ _ _ _ _ _ _ _ _ _ anon0_len N1 _ g k R C 3 M C1 (w0_fair _) A B Nd Q 0 f Ef).
  destruct (C79_disk _ _ _ _ _ _ _ _ _ _ _ anon0_len N1 _ g k R C 3 M C1 (w0_fair _) A B Nd Q 0 f Ef) as [D1 _].
  destruct (C79_program_files _ _ _ _ _ _ _ _ _ _ anon0_len N1 g P C 3 M C1 (w0_fair _) A B Q) as (_ & _ & X).
  specialize (X 0). rewrite Ef in X. destruct X as [X _]. rewrite <- X in H.
  specialize (E 0 f Ef Fo). cbn [snd] in E. rewrite E, H in D1. injection D1 as D1. rewrite D1 in Fl. discriminate Fl.
Qed.
Print Assumptions C79_disk_refuted.
