(** Property C80: a file that has been closed is complete and final, while the
    program goes on. *)
From Coq Require Import Strings.String.
From stdpp Require Import gmap relations.
From Coq Require Import NArith ZArith Lia.
From Verif Require Import GoBase GoBaseFacts GoTime Inetdiag Netlink SpecNetlink RecordFacts SpecCompare Snapshot SpecSnapshot SpecJson Archive SpecArchive
  Cache Saver SpecSaver System SpecSystem SystemHidden SpecRecovered SmallFiles SpecPipeline PipelineFacts SpecConfig MainConfig P_Main Flags SpecFlags P_Flags
  Anonymizer P_Privacy Program SpecProgram ProgramFacts ProgramEnd Disk SpecDisk DiskFacts Whole SpecWhole WholeFacts
  Samples P_Saver P_System P_Archive P_Pipeline P_Program P_Disk P_Whole ClosedFiles.
From Verif Require Reader SpecReader Collector SpecCollector ProgramRuns.
Local Open Scope list_scope.

(** ** Nothing happens to it any more *)

(** Whatever the process, its children and the system do from there, the file is
    written no more, and what is on disk under its name is the compressed form of all
    its lines: at the moment it is closed and at every later one. *)
Theorem C80_final : forall w cf cap anon line hline v reps on marshal z, (forall x, length (anon x) = length x) -> 1 <= nmarsh cf ->
  forall k0 g k, run_of w cf cap anon line hline v reps on marshal z k0 (g, k) ->
  forall g' k', rtc (whole w cf cap anon line hline v reps on marshal z) (g, k) (g', k') -> all_comparable cf (g_sent g') ->
  NoDup (openings (log_of w cf (g_sent g'))) ->
  forall wr f, y_files (g_sys g) !! wr = Some f -> f_open f = false ->
  y_files (g_sys g') !! wr = Some f /\ d_file k (f_path f) = Some (z (f_data f)) /\ d_file k' (f_path f) = Some (z (f_data f)).
Proof.
  intros w cf cap anon line hline v reps on marshal z Hl Hn k0 g k R g' k' H Hc Nd wr f F O.
  assert (R' : run_of w cf cap anon line hline v reps on marshal z k0 (g', k')) by (eapply rtc_transitive; [exact R|exact H]).
  pose proof (run_possible _ _ _ _ _ _ _ _ _ _ _ _ _ R) as P. cbn [fst] in P. pose proof (whole_moves _ _ _ _ _ _ _ _ _ _ _ _ _ H) as M. cbn [fst] in M.
  destruct (moves_keep w cf cap anon line hline v reps on marshal z k0 Hl Hn g g' P M wr f F) as (f' & F' & _ & K). rewrite (K O) in F'.
  split; [exact F'|]. split.
  - exact (closed_disk w cf cap anon line hline v reps on marshal z k0 Hl Hn g k g' k' R H Hc (C72_distinct w cf _ Nd) wr f F O).
  - destruct (C73_meanwhile w cf cap anon line hline v reps on marshal z Hl Hn k0 g' k' R' Hc Nd) as [D _]. by apply (D wr f F').
Qed.
Print Assumptions C80_final.

(** ** It is complete *)

(** Its lines are all those the saver has ever asked for, for the header and for
    each record queued on it: the file ends where the saver ended it. *)
Theorem C80_complete : forall w cf cap anon line hline v reps on marshal, (forall x, length (anon x) = length x) -> 1 <= nmarsh cf -> 1 <= cap ->
  forall g, possible w cf cap anon line hline v reps on marshal g -> all_comparable cf (g_sent g) -> Forall (parses cf) (g_sent g) -> fair_order w ->
  forall wr f, y_files (g_sys g) !! wr = Some f -> f_open f = false ->
  f_data f = contents anon line hline wr (log_of w cf (g_sent g)).
Proof.
  intros w cf cap anon line hline v reps on marshal Hl Hn Hcap g P Hc Hp Hf wr f F O.
  destruct (full_saver g) as (_ & _ & _ & F4 & _). rewrite <- F4 in F.
  destruct (closed_complete w cf cap anon line hline Hl Hn (g_sent g) (full g) Hc Hcap Hp Hf (full_reachable _ _ _ _ _ _ _ _ _ _ g P) wr f F O) as (_ & _ & _ & _ & E).
  exact E.
Qed.
Print Assumptions C80_complete.

(** ** It loads *)

(** Decompressed, a closed file loads while the program still runs, as every file
    does when main has returned (C73_sound): the metadata, then snapshots each of
    which shows a message the kernel sent and the command line did not exclude. *)
Theorem C80_loads : forall lib args env st, distinct lib -> main_flags lib args env = Goes st ->
  exists ips ports, told_to_exclude lib args env ips ports /\
  forall w cap zone v on marshal z unz k0 g k, 1 <= cap -> (forall x, unz (z x) = x) ->
  run_of w (main_cf st) cap (main_anon (f_anon st)) (json_line zone) (header_line zone) v (f_reps st) on marshal z k0 (g, k) ->
  usual zone w (main_cf st) (g_sent g) ->
  forall wr f, y_files (g_sys g) !! wr = Some f -> f_open f = false -> exists c n, d_file k (f_path f) = Some c /\
    forall i fuel, SpecReader.solid i -> SpecReader.contents i = unz c -> n < fuel ->
    exists md s0 ss, load_all fuel (Reader.archive_next unmarshal) (Reader.new_scanner i) = Ret (Some md, s0 :: ss) /\
      sn_time s0 = 1243641599000000000%Z /\ sn_idm s0 = None /\ sn_tcp s0 = None /\ sn_observed s0 = 0%N /\
      Forall (fun s => exists t m, received (g_sent g) t m /\ h_type (m_header m) = 20%N /\ 72 <= length (data_of m) /\ ~ unwanted ips ports (raw_of m) /\
                shows (main_anon (f_anon st)) t m s) ss.
Proof.
  intros lib args env st Hd Hg. destruct (told lib args env st Hd Hg) as (ips & ports & T & X). exists ips, ports. split; [exact T|].
  intros w cap zone v on marshal z unz k0 g k Hcap Hz Hr Hu wr f F O. destruct Hu as [U1 U2 U3 U4 [U5 U6] U7 U8 U9 U10].
  destruct (C80_final _ _ _ _ _ _ _ _ _ _ _ (main_anon_len _) (cf_marsh st) _ _ _ Hr _ _ (rtc_refl _ _) U3 U10 wr f F O) as (_ & D & _).
  pose proof (run_possible _ _ _ _ _ _ _ _ _ _ _ _ _ Hr) as P. cbn [fst] in P.
  destruct (full_saver g) as (_ & _ & _ & F4 & _). rewrite <- F4 in F.
  destruct (closed_complete w (main_cf st) cap (main_anon (f_anon st)) (json_line zone) (header_line zone) (main_anon_len _) (cf_marsh st) (g_sent g) (full g) U3 Hcap U2 U1 (full_reachable _ _ _ _ _ _ _ _ _ _ g P) wr f F O)
    as (y' & Ry & Wg & F' & _).
  exists (z (f_data f)), (S (length (queued (file_actions wr (log_of w (main_cf st) (g_sent g)))))). split; [exact D|].
  intros i fuel Hs Hi Hfu. rewrite Hz in Hi.
  destruct (C52_snapshots w (main_cf st) cap (main_anon (f_anon st)) zone (main_anon_len _) (cf_marsh st) (g_sent g) U3 U4 U5 U9 U7 U6 y' wr f i fuel Hcap U2 U1 Ry Wg F' Hs Hi Hfu U8)
    as (md & s0 & ss & _ & A & B1 & B2 & B3 & B4 & Fa).
  exists md, s0, ss. split; [exact A|]. do 4 (split; [assumption|]). eapply Forall2_Forall_r; [exact Fa|]. apply Forall_forall. intros q Hq s ((t & m & Mo) & Sh).
  exists t, m. specialize (Sh t m Mo). destruct Mo as (Rm & ar & Em & _). split; [exact Rm|].
  destruct (make_ret_some m _ ar Em) as (Ht & Hle & _). split; [exact Ht|]. split; [exact Hle|]. split; [|exact Sh].
  intros Un. assert (N : make_archival_record m (excl (main_cf st)) = Ret None) by (apply X; auto). congruence.
Qed.
Print Assumptions C80_loads.

(** ** A case *)

(** From c73_case: in the fourth poll the first connection is gone and its file is
    closed; the other file is open and main has not returned. *)
Definition half2 : prog := run2 (json_line utc) (header_line utc) 85.
Definition end2 : prog := run2 (json_line utc) (header_line utc) 2000.
Definition open_at (g : prog) (wr : nat) : option bool := match y_files (g_sys g) !! wr with Some f => Some (f_open f) | None => None end.
Lemma open_at_some g wr b : open_at g wr = Some b -> exists f, y_files (g_sys g) !! wr = Some f /\ f_open f = b.
Proof. unfold open_at. destruct (y_files (g_sys g) !! wr) as [f|]; [|discriminate]. intros [= <-]. by exists f. Qed.
Lemma half2_state : g_sent half2 = sent2 /\ g_main half2 = MLoop 4 /\ open_at half2 0 = Some false /\ open_at half2 1 = Some true.
Proof. split; [|split; [|split]]; vm_compute; reflexivity. Qed.
Lemma end2_state : g_sent end2 = sent2 /\ g_main end2 = MExit.
Proof. exact run2_sent. Qed.
Lemma run2_later line hline n m : n <= m ->
  rtc (moves w0 (main_cf set2) 1 (main_anon (f_anon set2)) line hline (v_of kernel2) (f_reps set2) false (fun _ => None)) (run2 line hline n) (run2 line hline m).
Proof.
  intros L. unfold run2, ProgramRuns.play. cbn [foldl fst snd]. generalize (start (main_cf set2)) as g. revert m L.
  induction n as [|n IH]; intros m L g; [apply ProgramRuns.phase_moves|]. destruct m as [|m]; [lia|]. cbn [ProgramRuns.phase].
  destruct (ProgramRuns.first_act _ _ _ _ _ _ _ _ _ _ workers g) as [g1|]; [apply IH; lia|apply rtc_refl].
Qed.
Lemma half2_possible : possible w0 (main_cf set2) 1 (main_anon (f_anon set2)) (json_line utc) (header_line utc) (v_of kernel2) (f_reps set2) false (fun _ => None) half2.
Proof. apply ProgramRuns.play_possible. Qed.
Lemma half2_end2 : rtc (moves w0 (main_cf set2) 1 (main_anon (f_anon set2)) (json_line utc) (header_line utc) (v_of kernel2) (f_reps set2) false (fun _ => None)) half2 end2.
Proof. apply run2_later. apply Nat.leb_le. vm_compute. reflexivity. Qed.
Opaque half2 end2.
(** The run goes on to its end, and both moments meet the hypotheses. *)
Example c80_case : main_flags [] args2 noenv = Goes set2 /\
  (forall z k0, exists k k', run_of w0 (main_cf set2) 1 (main_anon (f_anon set2)) (json_line utc) (header_line utc) (v_of kernel2) (f_reps set2) false (fun _ => None) z k0 (half2, k) /\
    rtc (whole w0 (main_cf set2) 1 (main_anon (f_anon set2)) (json_line utc) (header_line utc) (v_of kernel2) (f_reps set2) false (fun _ => None) z) (half2, k) (end2, k')) /\
  usual utc w0 (main_cf set2) (g_sent half2) /\ usual utc w0 (main_cf set2) (g_sent end2) /\ g_main half2 = MLoop 4 /\ g_main end2 = MExit /\
  exists f f', y_files (g_sys half2) !! 0 = Some f /\ f_open f = false /\ y_files (g_sys half2) !! 1 = Some f' /\ f_open f' = true.
Proof.
  split; [vm_compute; reflexivity|]. split.
  { intros z k0. destruct (has_disk w0 (main_cf set2) 1 (main_anon (f_anon set2)) (json_line utc) (header_line utc) (v_of kernel2) (f_reps set2) false (fun _ => None) z k0 half2
 half2_possible) as (k & R & A).
    destruct (goes_on w0 (main_cf set2) 1 (main_anon (f_anon set2)) (json_line utc) (header_line utc) (v_of kernel2) (f_reps set2) false (fun _ => None) z k0 (half2, k) end2 A) as (k' & H & _).
    - exact half2_end2.
    - exists k, k'. split; [exact R|exact H]. }
  destruct half2_state as (E & M & F0 & F1). destruct end2_state as [E2 M2]. rewrite E, E2.
  split; [exact run2_usual|]. split; [exact run2_usual|]. split; [exact M|]. split; [exact M2|].
  apply open_at_some in F0 as (f & F & O). apply open_at_some in F1 as (f' & F' & O'). exists f, f'. auto.
Qed.

(** The hypothesis on the names is needed: what is written under a name that is used
    again is lost (C72_lost_refuted).  A file that is still open need not be complete
    (C73_killed_refuted). *)
