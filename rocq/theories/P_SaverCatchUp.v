(** Property C79: between two polls everything queued is written. A file here is
    what has been written to its writer; P_RestDisk.v has what is on disk. *)
From Coq Require Import Strings.String.
From stdpp Require Import gmap.
From Coq Require Import NArith ZArith Lia.
From Verif Require Import GoBase GoTime Inetdiag Netlink SpecNetlink SpecCompare Cache SpecCache Saver SpecSaver System SpecSystem SpecRest
  SaverSteps SaverFiles SaverRuns SaverHistory SystemInv SystemFiles SystemRefine SystemEnd SystemHidden Samples P_Compare P_Saver P_System SaverCatchUp.
Local Open Scope list_scope.

(** While nothing arrives there are finitely many steps, whatever the schedule,
    and some are left until the state is at rest. *)
Theorem C79_comes_to_rest : forall w cf cap anon line hline, (forall x, length (anon x) = length x) -> 1 <= nmarsh cf ->
  forall bs, all_comparable cf bs -> 1 <= cap -> Forall (parses cf) bs -> fair_order w ->
  forall y, reachable w cf cap anon line hline bs y ->
  (exists y', rtc (alone w cf cap anon line hline) y y' /\ at_rest w cf cap anon line hline y') /\
  ~ (exists f : nat -> sys, f 0 = y /\ forall n, alone w cf cap anon line hline (f n) (f (S n))).
Proof.
  intros w cf cap anon line hline Hl Hn bs Hc Hcap Hp Hf y Hr. split; [by eapply rest_reached|].
  intros (f & _ & H). apply (no_infinite w cf cap anon line hline f). intros n. exact (proj1 (H n)).
Qed.
Print Assumptions C79_comes_to_rest.

(** At rest, before the channel is closed, the saver is where the polls received
    so far take it, and every file holds all that was queued for it. *)
Theorem C79_files_current : forall w cf cap anon line hline, (forall x, length (anon x) = length x) -> 1 <= nmarsh cf ->
  forall bs, all_comparable cf bs -> 1 <= cap -> Forall (parses cf) bs -> fair_order w ->
  forall y, reachable w cf cap anon line hline bs y -> at_rest w cf cap anon line hline y -> y_jobs y <> [] ->
  y_saver y = loop w cf (received bs y) new_saver /\
  forall wr, y_files y !! wr = final_file anon line hline wr (s_log (loop w cf (received bs y) new_saver)).
Proof.
  intros w cf cap anon line hline Hl Hn bs Hc Hcap Hp Hf y Hr Q J.
  destruct (rest_state w cf cap anon line hline Hl Hn bs Hc Hcap Hp Hf y Hr Q) as (E & _ & F).
  destruct (y_jobs y) as [|j js]; [done|]. split; [exact E|]. intros wr. rewrite <- E. apply F.
Qed.
Print Assumptions C79_files_current.

(** So what a file contains then is, byte for byte, what it would contain had the
    program been shut down after those polls. *)
Theorem C79_as_if_shut_down : forall w cf cap anon line hline, (forall x, length (anon x) = length x) -> 1 <= nmarsh cf ->
  forall bs, all_comparable cf bs -> 1 <= cap -> Forall (parses cf) bs -> fair_order w ->
  forall y, reachable w cf cap anon line hline bs y -> at_rest w cf cap anon line hline y ->
  forall wr, match y_files y !! wr with
  | Some f => f_data f = contents anon line hline wr (s_log (message_saver_loop w cf (received bs y))) /\
              ACreate wr (f_path f) ∈ s_log (message_saver_loop w cf (received bs y))
  | None => forall path, ACreate wr path ∉ s_log (message_saver_loop w cf (received bs y))
  end.
Proof. exact as_if_shut_down. Qed.
Print Assumptions C79_as_if_shut_down.

(** Every record that a shutdown after those polls would leave on disk is there,
    as its line. *)
Theorem C79_lines : forall w cf cap anon line hline, (forall x, length (anon x) = length x) -> 1 <= nmarsh cf ->
  forall bs, all_comparable cf bs -> 1 <= cap -> Forall (parses cf) bs -> fair_order w ->
  forall y, reachable w cf cap anon line hline bs y -> at_rest w cf cap anon line hline y ->
  forall q c wr r, ASend q (Some c) wr ∈ s_log (message_saver_loop w cf (received bs y)) -> hidden anon (c_ar c) = Some r ->
  exists f a b, y_files y !! wr = Some f /\ f_data f = a ++ (line r ++ [x0a]) ++ b.
Proof. exact lines_there. Qed.
Print Assumptions C79_lines.

(** The hypotheses are met by bs0 (four polls) under any schedule; marshallers
    first, the execution is at rest before the first poll, after each of the four
    polls, and after the end. *)
Definition calmb (y : sys) : bool :=
  forallb (fun m => negb (busy m)) (y_marsh y) && Nat.eqb (y_pc y) (length (s_log (y_saver y))) && match y_jobs y with [] => true | j :: _ => outside j end.
Lemma calmb_rest w cf cap anon line hline y : calmb y = true -> at_rest w cf cap anon line hline y.
Proof.
  unfold calmb. intros H. apply andb_prop in H as [H J]. apply andb_prop in H as [B P]. apply calm_rest. split; [|split].
  - intros q m M. apply elem_of_list_lookup_2, elem_of_list_In in M. rewrite forallb_forall in B. specialize (B m M). by destruct (busy m).
  - by apply Nat.eqb_eq.
  - by destruct (y_jobs y).
Qed.
Definition stops : list nat := [0; 21; 28; 58; 71; 86].
Example c79_case : (forall x, length (anon0 x) = length x) /\ 1 <= nmarsh cf0 /\ all_comparable cf0 bs0 /\ Forall (parses cf0) bs0 /\ fair_order w0 /\
  (forall n, n ∈ stops -> reachable w0 cf0 1 anon0 line0 hline0 bs0 (run0 eager n) /\ at_rest w0 cf0 1 anon0 line0 hline0 (run0 eager n)) /\
  map (fun n => length (received bs0 (run0 eager n))) stops = [0; 1; 2; 3; 4; 4] /\
  map (fun n => match y_jobs (run0 eager n) with [] => true | _ => false end) stops = [false; false; false; false; false; true].
Proof.
  destruct c30_case as (H1 & H2 & H3 & H4 & H5 & _). repeat (split; [assumption|]). split; [|split; vm_compute; reflexivity].
  intros n Hn. split; [apply run0_reachable|]. apply calmb_rest.
  assert (B : forallb (fun n => calmb (run0 eager n)) stops = true) by (vm_compute; reflexivity).
  rewrite forallb_forall in B. apply B. by apply elem_of_list_In.
Qed.
(** Lengths of the files and whether they are open at those moments: the files of
    three polls hold all their lines before the last poll closes one of them. *)
Example c79_files : map (fun n => map (fun wr => match y_files (run0 eager n) !! wr with Some f => Some (length (f_data f), f_open f) | None => None end) [0; 1; 2]) stops =
  [[None; None; None]; [Some (104, true); None; None]; [Some (104, true); None; None]; [Some (177, true); Some (104, true); None];
   [Some (177, false); Some (104, true); None]; [Some (177, false); Some (104, false); None]].
Proof. vm_compute. reflexivity. Qed.
(** Not at rest: in between, a file may hold less. *)
Example c79_between : calmb (run0 lazy_ 25) = false /\
  match y_files (run0 lazy_ 25) !! 0 with Some f => length (f_data f) | None => 0 end < length (contents anon0 line0 hline0 0 (s_log (message_saver_loop w0 cf0 (received bs0 (run0 lazy_ 25))))).
Proof. split; [vm_compute; reflexivity|]. apply Nat.ltb_lt. vm_compute. reflexivity. Qed.

(** At any moment, at rest or not: what the saver has done for a file and is not
    in it yet is among at most cap + 1 tasks of the file's marshaller. *)
Theorem C79_backlog : forall w cf cap anon line hline, (forall x, length (anon x) = length x) -> 1 <= nmarsh cf ->
  forall bs y, reachable w cf cap anon line hline bs y ->
  exists late : list (list task), length late = nmarsh cf /\ Forall (fun l => length l <= S cap) late /\
  forall wr f, y_files y !! wr = Some f -> exists q l finished more, late !! q = Some l /\
    file_actions wr (firstn (y_pc y) (s_log (y_saver y))) = finished ++ map (fun t => ASend q t.1 t.2) (List.filter (fun t => Nat.eqb t.2 wr) l) /\
    f_data f = concat (map (file_line anon line hline) finished) ++ more.
Proof. exact backlog. Qed.
Print Assumptions C79_backlog.
(** With one place in the channel a file can be two tasks behind. *)
Example c79_behind : existsb (fun n => existsb (fun m => Nat.eqb (length (pending m)) 2) (y_marsh (run0 lazy_ n))) (seq 0 60) = true.
Proof. vm_compute. reflexivity. Qed.
