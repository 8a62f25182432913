(** Property C73: from the command line and the kernel to the files on disk, and
    back to the snapshots. *)
From Coq Require Import Strings.String.
From stdpp Require Import gmap relations.
From Coq Require Import NArith ZArith Lia.
From Verif Require Import GoBase GoBaseFacts GoTime Inetdiag Netlink SpecNetlink RecordFacts SpecCompare Snapshot SpecSnapshot SpecJson Archive SpecArchive
  Cache Saver SpecSaver System SpecSystem SystemHidden SpecRecovered SmallFiles SpecPipeline PipelineFacts SpecConfig MainConfig P_Main Flags SpecFlags P_Flags
  Anonymizer P_Privacy Program SpecProgram ProgramFacts ProgramEnd Disk SpecDisk DiskFacts Whole SpecWhole WholeFacts
  Samples P_Saver P_System P_Archive P_Pipeline P_Program P_Disk.
From Verif Require Reader SpecReader Collector SpecCollector ProgramRuns.
Local Open Scope list_scope.

(** The configuration main gives the saver (main.go:128-146 with cache and saver as
    C51, C55 and C70 use it). *)
Notation main_cf st := (mkconfig 3 (Some (main_config (f_ips st) (f_ports st)))).

Lemma cf_marsh st : 1 <= nmarsh (main_cf st). Proof. cbn. lia. Qed.

Section Whole.
Variables (lib : library) (args : list bytes) (env : bytes -> option bytes) (st : settings).
Hypothesis (Hd : distinct lib) (Hg : main_flags lib args env = Goes st).
Variables (w : world) (cap : nat) (zone : Z -> Z) (v : Collector.environment) (on : bool) (marshal : EventServer.flow_event -> option bytes).
Variables (z : bytes -> bytes) (k0 : bytes -> option bytes) (g : prog) (k : disk).
Notation cf := (main_cf st).
Notation anon := (main_anon (f_anon st)).
Notation log := (log_of w cf (g_sent g)).
Hypothesis (Hcap : 1 <= cap).
Hypothesis (Hr : run_of w cf cap anon (json_line zone) (header_line zone) v (f_reps st) on marshal z k0 (g, k)).
Hypothesis (Hm : g_main g = MExit) (Hu : usual zone w cf (g_sent g)).

Lemma told : exists ips ports, told_to_exclude lib args env ips ports /\
  forall m, make_archival_record m (excl cf) = Ret None <-> h_type (m_header m) = 20%N /\ 72 <= length (data_of m) /\ unwanted ips ports (raw_of m).
Proof using Hd Hg.
  destruct (C70_excludes lib args env st Hd Hg) as (occ & ips & ports & su1 & ts1 & wss1 & su2 & ts2 & wss2 & A & B & C & D & E & F & G & H).
  exists ips, ports. split; [|exact H]. exists occ, su1, ts1, wss1, su2, ts2, wss2. auto 10.
Qed.

(** Main has returned, so every marshaller has. *)
Lemma finished_run : g_ended g = true /\ y_wg (g_sys g) = 0 /\ disk_reachable w cf cap anon (json_line zone) (header_line zone) z (g_sent g) k0 (g_sys g, k).
Proof using Hr Hm Hu.
  pose proof (run_possible _ _ _ _ _ _ _ _ _ _ _ _ _ Hr) as P. cbn [fst] in P. destruct Hu.
  destruct (after_exit w cf cap anon (json_line zone) (header_line zone) v (f_reps st) on marshal (main_anon_len _) (cf_marsh st) g P Hm u_order u_comparable u_parses) as (En & _ & (_ & _ & _ & Wg & _)).
  split; [exact En|]. split; [exact Wg|]. pose proof (run_disk _ _ _ _ _ _ _ _ _ _ _ _ g k Hr) as D. unfold full in D. rewrite En in D. exact D.
Qed.

(** What is read from the file of a writer. *)
Lemma read_file wr p : ACreate wr p ∈ log -> exists c x, d_file k p = Some c /\ c = z x /\
  forall i fuel, SpecReader.solid i -> SpecReader.contents i = x -> S (length (queued (file_actions wr log))) < fuel ->
  exists md s0 ss, AHeader wr md ∈ log /\ load_all fuel (Reader.archive_next unmarshal) (Reader.new_scanner i) = Ret (Some md, s0 :: ss) /\
    sn_time s0 = 1243641599000000000%Z /\ sn_idm s0 = None /\ sn_tcp s0 = None /\ sn_observed s0 = 0%N /\
    Forall2 (fun q s => (exists t m, made_of cf (g_sent g) q t m) /\ forall t m, made_of cf (g_sent g) q t m -> shows anon t m s)
      (List.filter known_family (queued (file_actions wr log))) ss.
Proof using Hcap Hr Hm Hu.
  intros I. destruct finished_run as (En & Wg & R). pose proof (disk_sys _ _ _ _ _ _ _ _ _ _ R) as Ry. cbn [fst] in Ry. destruct Hu as [U1 U2 U3 U4 [U5 U6] U7 U8 U9 U10].
  pose proof (C72_final w cf cap anon (json_line zone) (header_line zone) z (main_anon_len _) (cf_marsh st) (g_sent g) U3 U2 U1 (C72_distinct w cf _ U10) k0 (g_sys g) k R Wg wr p I) as D.
  exists (z (contents anon (json_line zone) (header_line zone) wr log)), (contents anon (json_line zone) (header_line zone) wr log).
  split; [exact D|]. split; [reflexivity|]. intros i fuel Hs Hi Hfu.
  destruct (C30_wait w cf cap anon (json_line zone) (header_line zone) (main_anon_len _) (cf_marsh st) (g_sent g) U3 U2 U1 (g_sys g) Ry Wg) as [Fin A].
  destruct (C28_final w cf cap anon (json_line zone) (header_line zone) (main_anon_len _) (cf_marsh st) (g_sent g) U3 (g_sys g) Ry Fin) as [_ B].
  assert (X : exists f, y_files (g_sys g) !! wr = Some f).
  { rewrite (B wr). unfold final_file. assert (J : ACreate wr p ∈ file_actions wr log)
      by (unfold file_actions; apply elem_of_list_In, List.filter_In; split; [by apply elem_of_list_In | cbn; by rewrite Nat.eqb_refl]).
    unfold log_of in J. destruct (SaverFiles.file_histories w cf _ wr (SaverSteps.message_saver_loop_steps w cf (g_sent g))) as [E|(cl & q & c & md & recs & path & E & _)];
      rewrite E in J |- *; [by apply elem_of_nil in J | cbn; eauto]. }
  destruct X as (f & F). destruct (A wr f F) as [_ Df].
  apply (C52_snapshots w cf cap anon zone (main_anon_len _) (cf_marsh st) (g_sent g) U3 U4 U5 U9 U7 U6 (g_sys g) wr f i fuel Hcap U2 U1 Ry Wg F Hs); [rewrite Hi; symmetry; exact Df | exact Hfu | exact U8].
Qed.
End Whole.

(** ** When main has returned *)

(** Every file the program created is in the output directory.  Decompressed, it
    loads: first the metadata, then snapshots, and each of them shows a message that
    the kernel sent in one of the dumps and that the command line did not exclude,
    with its addresses as the command line wants them.  Everything else in the
    directory is as it was. *)
Theorem C73_sound : forall lib args env st, distinct lib -> main_flags lib args env = Goes st ->
  forall w cap zone v on marshal z unz k0 g k, 1 <= cap -> (forall x, unz (z x) = x) ->
  run_of w (main_cf st) cap (main_anon (f_anon st)) (json_line zone) (header_line zone) v (f_reps st) on marshal z k0 (g, k) ->
  g_main g = MExit -> usual zone w (main_cf st) (g_sent g) ->
  exists ips ports, told_to_exclude lib args env ips ports /\ collected v (g_sent g) /\
  (forall p, p ∉ paths (log_of w (main_cf st) (g_sent g)) -> d_file k p = k0 p) /\
  forall p, p ∈ paths (log_of w (main_cf st) (g_sent g)) -> exists c n, d_file k p = Some c /\
    forall i fuel, SpecReader.solid i -> SpecReader.contents i = unz c -> n < fuel ->
    exists md s0 ss, load_all fuel (Reader.archive_next unmarshal) (Reader.new_scanner i) = Ret (Some md, s0 :: ss) /\
      sn_time s0 = 1243641599000000000%Z /\ sn_idm s0 = None /\ sn_tcp s0 = None /\ sn_observed s0 = 0%N /\
      Forall (fun s => exists t m, received (g_sent g) t m /\ h_type (m_header m) = 20%N /\ 72 <= length (data_of m) /\ ~ unwanted ips ports (raw_of m) /\
                shows (main_anon (f_anon st)) t m s) ss.
Proof.
  intros lib args env st Hd Hg w cap zone v on marshal z unz k0 g k Hcap Hz Hr Hm Hu.
  destruct (told lib args env st Hd Hg) as (ips & ports & T & X). exists ips, ports. split; [exact T|]. split; [|split].
  - apply (invs _ _ _ _ _ _ _ _ _ _ _ (run_possible _ _ _ _ _ _ _ _ _ _ _ _ _ Hr)).
  - intros p N. destruct (finished_run st w cap zone v on marshal z k0 g k Hr Hm Hu) as (_ & _ & R).
    by apply (C72_untouched _ _ _ _ _ _ _ (main_anon_len _) (cf_marsh st) _ (u_comparable _ _ _ _ Hu) _ _ _ R).
  - intros p I. apply paths_in in I as (wr & I).
    destruct (read_file st w cap zone v on marshal z k0 g k Hcap Hr Hm Hu wr p I) as (c & x & D & -> & L). exists (z x), (S (length (queued (file_actions wr (log_of w (main_cf st) (g_sent g)))))).
    split; [exact D|]. intros i fuel Hs Hi Hfu. rewrite Hz in Hi. destruct (L i fuel Hs Hi Hfu) as (md & s0 & ss & _ & A & B1 & B2 & B3 & B4 & F).
    exists md, s0, ss. split; [exact A|]. do 4 (split; [assumption|]). eapply Forall2_Forall_r; [exact F|]. apply Forall_forall. intros q Hq s ((t & m & Mo) & Sh).
    exists t, m. specialize (Sh t m Mo). destruct Mo as (Rm & ar & Em & _). split; [exact Rm|].
    destruct (make_ret_some m _ ar Em) as (Ht & Hl & _). split; [exact Ht|]. split; [exact Hl|]. split; [|exact Sh].
    intros Un. assert (N : make_archival_record m (excl (main_cf st)) = Ret None) by (apply X; auto). congruence.
Qed.
Print Assumptions C73_sound.

(** And nothing is missing: if no file operation failed, every record of an IPv4 or
    IPv6 connection that is new or has changed since the poll before is shown by a
    snapshot in one of the files. *)
Theorem C73_complete : forall lib args env st, distinct lib -> main_flags lib args env = Goes st ->
  forall w cap zone v on marshal z unz k0 g k, 1 <= cap -> (forall x, unz (z x) = x) ->
  run_of w (main_cf st) cap (main_anon (f_anon st)) (json_line zone) (header_line zone) v (f_reps st) on marshal z k0 (g, k) ->
  g_main g = MExit -> usual zone w (main_cf st) (g_sent g) -> io_ok w ->
  forall before b after, g_sent g = before ++ b :: after -> forall l1 r l2, accepted (main_cf st) b = l1 ++ r :: l2 ->
  rec_cookie r <> 0%N -> known_family r = true ->
  (forall o, reference (last_accepted (main_cf st) before) l1 (rec_cookie r) = Some o -> ~ no_significant_change o r) ->
  exists p c n, p ∈ paths (log_of w (main_cf st) (g_sent g)) /\ d_file k p = Some c /\
    forall i fuel, SpecReader.solid i -> SpecReader.contents i = unz c -> n < fuel ->
    exists md s0 ss s, load_all fuel (Reader.archive_next unmarshal) (Reader.new_scanner i) = Ret (Some md, s0 :: ss) /\ s ∈ ss /\
      forall t m, made_of (main_cf st) (g_sent g) r t m -> shows (main_anon (f_anon st)) t m s.
Proof.
  intros lib args env st Hd Hg w cap zone v on marshal z unz k0 g k Hcap Hz Hr Hm Hu Hio before b after E l1 r l2 Ea Hc Hk Hnew.
  pose proof (u_parses _ _ _ _ Hu) as U1. pose proof (u_comparable _ _ _ _ Hu) as U2. rewrite E in U1, U2.
  pose proof (saved_queued w (main_cf st) Hio (cf_marsh st) (u_order _ _ _ _ Hu) before b after U1 U2 l1 r l2 Ea Hc Hnew) as Q. rewrite <- E in Q.
  apply queued_file in Q as (wr & p & I & Q).
  destruct (read_file st w cap zone v on marshal z k0 g k Hcap Hr Hm Hu wr p I) as (c & x & D & -> & L).
  exists p, (z x), (S (length (queued (file_actions wr (log_of w (main_cf st) (g_sent g)))))). split; [apply paths_in; by exists wr|]. split; [exact D|].
  intros i fuel Hs Hi Hfu. rewrite Hz in Hi. destruct (L i fuel Hs Hi Hfu) as (md & s0 & ss & _ & A & _ & _ & _ & _ & F).
  assert (Qf : r ∈ List.filter known_family (queued (file_actions wr (log_of w (main_cf st) (g_sent g))))) by (apply elem_of_list_In, List.filter_In; split; [by apply elem_of_list_In | exact Hk]).
  apply elem_of_list_lookup in Qf as (j & Qj). destruct (Forall2_lookup_l _ _ _ _ _ F Qj) as (s & Sj & _ & Sh).
  exists md, s0, ss, s. split; [exact A|]. split; [by eapply elem_of_list_lookup_2 | exact Sh].
Qed.
Print Assumptions C73_complete.

(** A message of a new connection gives a record that is new. *)
Lemma new_accepted st before b t m ips ports :
  (forall m, make_archival_record m (excl (main_cf st)) = Ret None <-> h_type (m_header m) = 20%N /\ 72 <= length (data_of m) /\ unwanted ips ports (raw_of m)) ->
  received [b] t m -> h_type (m_header m) = 20%N -> 72 <= length (data_of m) -> (exists l, wire_area l (area_of m)) ->
  (hdr_family (raw_of m) = 2 \/ hdr_family (raw_of m) = 10)%N -> hdr_cookie (raw_of m) <> 0%N -> ~ unwanted ips ports (raw_of m) ->
  (forall b' t' m', last before = Some b' -> received [b'] t' m' -> hdr_cookie (raw_of m') <> hdr_cookie (raw_of m)) ->
  exists ar l1 l2, let r := mkar t (ar_raw ar) (ar_attrs ar) (ar_meta ar) in make_archival_record m (excl (main_cf st)) = Ret (Some ar) /\
    accepted (main_cf st) b = l1 ++ r :: l2 /\ rec_cookie r <> 0%N /\ known_family r = true /\
    forall o, reference (last_accepted (main_cf st) before) l1 (rec_cookie r) = Some o -> ~ no_significant_change o r.
Proof.
  intros X Rm Ht Hl (l & Hw) Hf Hc Hx Hnew.
  assert (Nx : not_excluded (excl (main_cf st)) (raw_of m)).
  { cbn [excl not_excluded]. intros Q. apply Hx. assert (N : make_archival_record m (excl (main_cf st)) = Ret None) by (apply make_ret_none_iff; split; [exact Ht|]; split; [exact Hl|]; eexists; split; [reflexivity | exact Q]). apply X in N as (_ & _ & N). exact N. }
  destruct (make_accepts m _ l Ht Hl Nx Hw) as (ar & Em). set (r := mkar t (ar_raw ar) (ar_attrs ar) (ar_meta ar)).
  destruct (make_ret_some m _ ar Em) as (_ & _ & _ & l' & mx & _ & _ & _ & _ & Eraw & _).
  assert (Er : header r = raw_of m) by (unfold header, r; cbn [ar_raw]; by rewrite Eraw).
  assert (Ir : r ∈ accepted (main_cf st) b).
  { destruct Rm as (b' & Hb & [[I ->]|[I ->]]); apply elem_of_list_singleton in Hb as ->; unfold accepted; apply elem_of_app; [left|right];
      apply elem_of_list_omap; exists (Some m); (split; [exact I|]); by rewrite Em. }
  apply elem_of_list_split in Ir as (l1 & l2 & Ea).
  exists ar, l1, l2. fold r. cbv zeta. split; [exact Em|]. split; [exact Ea|]. split; [unfold rec_cookie; by rewrite Er|].
  split; [unfold known_family; rewrite Er; destruct Hf as [->| ->]; reflexivity|].
  intros o Ho. exfalso. unfold reference in Ho. destruct (latest (rec_cookie r) l1); [discriminate Ho|].
  unfold latest in Ho. assert (Io : o ∈ filter (fun x => rec_cookie x = rec_cookie r) (last_accepted (main_cf st) before)) by (apply last_Some in Ho as (l0 & ->); apply elem_of_app; right; by apply elem_of_list_singleton).
  apply elem_of_list_filter in Io as [Co Io]. unfold last_accepted in Io. destruct (last before) as [b'|] eqn:Lb; [|by apply elem_of_nil in Io].
  unfold rec_cookie in Co. rewrite Er in Co.
  assert (G : exists t' m' ar', received [b'] t' m' /\ make_archival_record m' (excl (main_cf st)) = Ret (Some ar') /\ o = mkar t' (ar_raw ar') (ar_attrs ar') (ar_meta ar')).
  { apply (accepted_from (main_cf st) [b'] o). unfold all_accepted. cbn. by rewrite app_nil_r. }
  destruct G as (t' & m' & ar' & Rm' & Em' & ->). apply (Hnew b' t' m' eq_refl Rm'). rewrite <- Co. unfold header. cbn [ar_raw].
  destruct (make_ret_some m' _ ar' Em') as (_ & _ & _ & ? & ? & _ & _ & _ & _ & Eraw' & _). by rewrite Eraw'.
Qed.

(** In terms of messages alone: a well-formed message about an IPv4 or IPv6
    connection that the command line does not exclude and that the poll before
    did not report is on disk. *)
Theorem C73_new_connection : forall lib args env st, distinct lib -> main_flags lib args env = Goes st ->
  exists ips ports, told_to_exclude lib args env ips ports /\
  forall w cap zone v on marshal z unz k0 g k, 1 <= cap -> (forall x, unz (z x) = x) ->
  run_of w (main_cf st) cap (main_anon (f_anon st)) (json_line zone) (header_line zone) v (f_reps st) on marshal z k0 (g, k) ->
  g_main g = MExit -> usual zone w (main_cf st) (g_sent g) -> io_ok w ->
  forall before b after t m, g_sent g = before ++ b :: after -> received [b] t m ->
  h_type (m_header m) = 20%N -> 72 <= length (data_of m) -> (exists l, wire_area l (area_of m)) ->
  (hdr_family (raw_of m) = 2 \/ hdr_family (raw_of m) = 10)%N -> hdr_cookie (raw_of m) <> 0%N -> ~ unwanted ips ports (raw_of m) ->
  (forall b' t' m', last before = Some b' -> received [b'] t' m' -> hdr_cookie (raw_of m') <> hdr_cookie (raw_of m)) ->
  exists p c n, p ∈ paths (log_of w (main_cf st) (g_sent g)) /\ d_file k p = Some c /\
    forall i fuel, SpecReader.solid i -> SpecReader.contents i = unz c -> n < fuel ->
    exists md s0 ss s, load_all fuel (Reader.archive_next unmarshal) (Reader.new_scanner i) = Ret (Some md, s0 :: ss) /\ s ∈ ss /\
      shows (main_anon (f_anon st)) t m s.
Proof.
  intros lib args env st Hd Hg. destruct (told lib args env st Hd Hg) as (ips & ports & T & X). exists ips, ports. split; [exact T|].
  intros w cap zone v on marshal z unz k0 g k Hcap Hz Hr Hm Hu Hio before b after t m E Rm Ht Hl (l & Hw) Hf Hc Hx Hnew.
  destruct (new_accepted st before b t m ips ports X Rm Ht Hl (ex_intro _ l Hw) Hf Hc Hx Hnew) as (ar & l1 & l2 & Em & Ea & C1 & C2 & C3).
  destruct (C73_complete lib args env st Hd Hg w cap zone v on marshal z unz k0 g k Hcap Hz Hr Hm Hu Hio before b after E l1 _ l2 Ea C1 C2 C3) as (p & c & n & I & D & L).
  exists p, c, n. split; [exact I|]. split; [exact D|]. intros i fuel Hs Hi Hfu. destruct (L i fuel Hs Hi Hfu) as (md & s0 & ss & s & A & B & C).
  exists md, s0, ss, s. split; [exact A|]. split; [exact B|]. apply C. split; [|by exists ar].
  destruct Rm as (b' & Hb & H). apply elem_of_list_singleton in Hb as ->. exists b. split; [rewrite E; apply elem_of_app; right; apply elem_of_list_here | exact H].
Qed.
Print Assumptions C73_new_connection.

(** ** Meanwhile *)

(** At every moment, whatever happens to the process next, the file of a writer is
    what its compressor has put out; once closed, the compressed form of all the
    lines written; and everything else is as it was before the program started. *)
Theorem C73_meanwhile : forall w cf cap anon line hline v reps on marshal z, (forall x, length (anon x) = length x) -> 1 <= nmarsh cf ->
  forall k0 g k, run_of w cf cap anon line hline v reps on marshal z k0 (g, k) -> all_comparable cf (g_sent g) ->
  NoDup (openings (log_of w cf (g_sent g))) ->
  (forall wr f, y_files (g_sys g) !! wr = Some f -> d_file k (f_path f) = Some (d_out k wr) /\ (f_open f = false -> d_file k (f_path f) = Some (z (f_data f)))) /\
  (forall p, p ∉ paths (log_of w cf (g_sent g)) -> d_file k p = k0 p).
Proof.
  intros w cf cap anon line hline v reps on marshal z Hl Hn k0 g k R Hc Nd. pose proof (run_disk _ _ _ _ _ _ _ _ _ _ _ _ g k R) as D.
  destruct (full_saver g) as (_ & _ & _ & Ef & _). split.
  - intros wr f F. apply (C72_disk w cf cap anon line hline z Hl Hn (g_sent g) Hc (C72_distinct w cf _ Nd) k0 (full g) k D). by rewrite Ef.
  - intros p N. by apply (C72_untouched w cf cap anon line hline z Hl Hn (g_sent g) Hc k0 (full g) k D).
Qed.
Print Assumptions C73_meanwhile.

(** The runs with a disk are those of C55: forgetting the disk gives a run of the
    process, and every run of the process is one with a disk. *)
Theorem C73_runs : forall w cf cap anon line hline v reps on marshal z k0 g,
  (exists k, run_of w cf cap anon line hline v reps on marshal z k0 (g, k)) <-> possible w cf cap anon line hline v reps on marshal g.
Proof.
  intros w cf cap anon line hline v reps on marshal z k0 g. split.
  - intros (k & R). exact (run_possible _ _ _ _ _ _ _ _ _ _ _ _ _ R).
  - intros P. destruct (has_disk w cf cap anon line hline v reps on marshal z k0 g P) as (k & R & _). by exists k.
Qed.
Print Assumptions C73_runs.

(** ** A case: tcp-info with -anonymize.ip=netblock and an excluded host *)
Definition args2 : list bytes := [str "-reps=4"; str "-anonymize.ip=netblock"; str "-exclude-dstip=192.0.2.99"].
Definition set2 : settings := mkset 4 false [] [] [str "192.0.2.99"] [] MNetblock.
Definition kernel2 (n : nat) : list nlmsg :=
  match n with 0 => [conn_msg 7 10 20; neighbour_msg 8 1 1] | 1 => [neighbour_msg 8 1 5; conn_msg 7 10 20] | 2 => [conn_msg 7 10 90; conn_msg 9 3 3] | _ => [conn_msg 9 3 3] end.
Definition run2 (line : archival -> bytes) (hline : metadata -> bytes) (n : nat) : prog :=
  ProgramRuns.play w0 (main_cf set2) 1 (main_anon (f_anon set2)) line hline (v_of kernel2) (f_reps set2) false (fun _ => None) [(n, workers)].
Definition sent2 : list block := sent1 kernel2.
Lemma run2_sent : g_sent (run2 (json_line utc) (header_line utc) 2000) = sent2 /\ g_main (run2 (json_line utc) (header_line utc) 2000) = MExit.
Proof. split; vm_compute; reflexivity. Qed.
Lemma sent2_named t m : received sent2 t m -> named_congestion m.
Proof.
  intros (b & Hb & H).
  assert (K : exists (h : bytes) sent recv, m = multi (sample_msg (h ++ sample_attr 2 (sample_info sent recv))) /\ length h = 72 /\ (sent < 256)%N /\ (recv < 256)%N).
  { destruct H as [[H _]|[H _]]; unfold sent2, sent1 in Hb; cbn [seq map] in Hb; repeat (apply elem_of_cons in Hb as [->|Hb]); try (by apply elem_of_nil in Hb); cbn in H;
      repeat (apply elem_of_cons in H as [H|H]); try (by apply elem_of_nil in H); injection H as ->; unfold conn_msg, neighbour_msg;
      match goal with |- context [sample_hdr ?a ?b ?c ?d ?e ?f ?k ++ sample_attr 2 (sample_info ?s ?r)] => exists (sample_hdr a b c d e f k), s, r end; repeat split. }
  destruct K as (h & sent & recv & -> & L & _). intros l Hl. apply (NetlinkFacts.parse_route_attr_ret_iff _ []) in Hl. destruct Hl as (attrs & E & <-).
  unfold multi, sample_msg in E. cbn [m_data vis] in E. rewrite skipn_app in E.
  rewrite skipn_all2 in E by (rewrite L; reflexivity). rewrite L in E. cbn [Nat.sub skipn app] in E.
  vm_compute in E. injection E as <-. intros K. inversion K as [|? ? ? K2]; subst. inversion K2.
Qed.

Lemma run2_usual : usual utc w0 (main_cf set2) sent2.
Proof.
  destruct (message_ok (main_cf set2) sent2 ltac:(vm_compute; reflexivity)) as [A B]. constructor.
  - apply w0_fair.
  - exact A.
  - exact B.
  - repeat (constructor; [split; split; vm_compute; discriminate || reflexivity|]). constructor.
  - split; [exact (proj1 (proj2 (proj2 (proj2 (proj2 c39_hypotheses))))) | vm_compute; discriminate].
  - assert (C : forallb (fun b => forallb (fun m => match m with Some msg => (N.of_nat (length (vis (m_data msg))) <=? 48000)%N | None => true end)
      (V4Messages b ++ V6Messages b)) sent2 = true) by (vm_compute; reflexivity).
    rewrite List.forallb_forall in C. apply Forall_forall. intros b Hb. apply elem_of_list_In in Hb. specialize (C b Hb).
    rewrite List.forallb_forall in C. apply Forall_forall. intros m Hm msg ->. apply elem_of_list_In in Hm. by apply N.leb_le, (C _ Hm).
  - exact sent2_named.
  - vm_compute. discriminate.
  - apply (bool_decide_unpack _). vm_compute. exact I.
Qed.
(** All hypotheses hold; of the three connections the one to the excluded host has
    no file; the third poll has a changed connection and a new one. *)
Example c73_case : let g := run2 (json_line utc) (header_line utc) 2000 in
  distinct [] /\ main_flags [] args2 noenv = Goes set2 /\
  (forall z k0, exists k, run_of w0 (main_cf set2) 1 (main_anon (f_anon set2)) (json_line utc) (header_line utc) (v_of kernel2) (f_reps set2) false (fun _ => None) z k0 (g, k)) /\
  g_main g = MExit /\ usual utc w0 (main_cf set2) (g_sent g) /\ io_ok w0 /\
  map (fun b => (length (V4Messages b), length (accepted (main_cf set2) b))) (g_sent g) = [(2, 1); (2, 1); (2, 2); (1, 1)] /\
  length (paths (log_of w0 (main_cf set2) (g_sent g))) = 2.
Proof.
  intros g. destruct run2_sent as [E M]. split.
  { unfold distinct. cbn. repeat constructor; cbn; intuition discriminate. }
  split; [vm_compute; reflexivity|]. split; [intros z k0; apply C73_runs, ProgramRuns.play_possible|]. split; [exact M|]. subst g. rewrite E.
  split; [exact run2_usual|]. split; [apply calm_world|]. split; vm_compute; reflexivity.
Qed.

(** A process that is killed leaves less than it had written: the compressor of an
    open file may not have put anything out. *)
Theorem C73_killed_refuted : ~ (forall w cf cap anon line hline v reps on marshal z k0 g k, (forall x, length (anon x) = length x) -> 1 <= nmarsh cf ->
  run_of w cf cap anon line hline v reps on marshal z k0 (g, k) -> usual utc w cf (g_sent g) ->
  forall wr f, y_files (g_sys g) !! wr = Some f -> d_file k (f_path f) = Some (z (f_data f))).
Proof.
  intros H. set (g := run2 line0 hline0 60).
  assert (P : possible w0 (main_cf set2) 1 (main_anon (f_anon set2)) line0 hline0 (v_of kernel2) (f_reps set2) false (fun _ => None) g) by apply ProgramRuns.play_possible.
  destruct (has_disk w0 (main_cf set2) 1 (main_anon (f_anon set2)) line0 hline0 (v_of kernel2) (f_reps set2) false (fun _ => None) (fun x => x) (fun _ => None) g P) as (k & R & A).
  assert (F : match y_files (g_sys g) !! 0 with Some f => f_open f && (0 <? length (f_data f)) | None => false end = true) by (vm_compute; reflexivity).
  destruct (y_files (g_sys g) !! 0) as [f|] eqn:Ef; [|discriminate F]. apply andb_true_iff in F as [Fo Fl].
  assert (E : g_sent g = take 3 sent2) by (vm_compute; reflexivity).
  assert (U : usual utc w0 (main_cf set2) (g_sent g)).
  { rewrite E. destruct run2_usual as [U1 U2 U3 U4 U5 U6 U7 _ _]. constructor; try assumption.
    - by apply Forall_take.
    - by apply Forall_take.
    - assert (In3 : Forall (fun t => t ∈ zero_time :: block_times sent2) (zero_time :: block_times (take 3 sent2))) by (apply (bool_decide_unpack _); vm_compute; exact I).
      rewrite Forall_forall in U4. eapply Forall_impl; [exact In3 | exact U4].
    - by apply Forall_take.
    - intros t m (b & Hb & Hm). apply (U7 t m). exists b. split; [|exact Hm]. rewrite <- (take_drop 3 sent2). apply elem_of_app. by left.
    - vm_compute. discriminate.
    - apply (bool_decide_unpack _). vm_compute. exact I. }
  specialize (H _ _ _ _ _ _ _ _ _ _ _ _ g k (main_anon_len _) (cf_marsh set2) R U 0 f Ef).
  destruct (C73_meanwhile _ _ _ _ _ _ _ _ _ _ _ (main_anon_len _) (cf_marsh set2) _ g k R (u_comparable _ _ _ _ U) (u_once _ _ _ _ U)) as [D _].
  destruct (D 0 f Ef) as [D1 _]. specialize (A 0 f Ef Fo). cbn [snd] in A. rewrite A, H in D1. injection D1 as D1. rewrite D1 in Fl. discriminate Fl.
Qed.
Print Assumptions C73_killed_refuted.
