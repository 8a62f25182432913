(** Property C75 for the whole program: the lines of the files it leaves on disk. *)
From Coq Require Import Strings.String.
From stdpp Require Import gmap relations.
From Coq Require Import NArith ZArith Lia.
From Verif Require Import GoBase GoBaseFacts GoTime Inetdiag Netlink SpecNetlink RecordFacts SpecCompare Snapshot SpecSnapshot SpecJson Archive SpecArchive
  Cache Saver SpecSaver System SpecSystem SystemHidden SpecRecovered SmallFiles SpecPipeline PipelineFacts SpecConfig MainConfig P_Main Flags SpecFlags P_Flags
  Anonymizer P_Privacy Program SpecProgram ProgramFacts ProgramEnd Disk SpecDisk DiskFacts Whole SpecWhole WholeFacts
  Samples P_Saver P_System P_Archive P_Pipeline P_Program P_Disk P_Whole SpecTool FileNames.
From Verif Require SpecPath SpecLine LineFiles Collector ProgramRuns.
Local Open Scope list_scope.

(** The record of a message m received at time t: the header with the addresses
    hidden, and of every attribute type up to 38 the last value. *)
Definition record_of (anon : bytes -> bytes) (t : Z) (m : nlmsg) (r : archival) : Prop :=
  ar_time r = t /\ ar_meta r = None /\ (exists h, hidden_header anon (raw_of m) = Some h /\ ar_raw r = Some h) /\
  exists l mx, wire_area l (area_of m) /\ largest_type l mx /\ length (ar_attrs r) = S (N.to_nat (N.min 38 mx)) /\
    forall k v, (k <= 38)%N -> (attr r (N.to_nat k) = Some v <-> last_of k l v).

Lemma record_of_made cf bs anon q r t m : made_of cf bs q t m -> hidden anon q = Some r -> record_of anon t m r.
Proof.
  intros (_ & ar & Em & ->) Hh. destruct (make_ret_some m _ ar Em) as (_ & Hl & _ & l & mx & Hw & Hx & _ & Mt & Er & La & At).
  unfold hidden, header in Hh. cbn [ar_raw] in Hh. rewrite Er in Hh. destruct (hidden_header anon (raw_of m)) as [h|] eqn:E; [|discriminate Hh].
  injection Hh as <-. split; [reflexivity|]. split; [exact Mt|]. split; [exists h; split; [exact E|reflexivity]|].
  exists l, mx. split; [exact Hw|]. split; [exact Hx|]. split; [exact La|]. intros k v Hk. rewrite <- (At k v Hk). unfold attr. cbn [ar_attrs]. split.
  - intros H. destruct (nth_error (ar_attrs ar) (N.to_nat k)) as [[g|]|] eqn:En; try discriminate H. injection H as <-. exists g. split; [|reflexivity]. exact (nth_error_nth _ _ None En).
  - intros (s & Hs & <-). destruct (nth_error (ar_attrs ar) (N.to_nat k)) as [o|] eqn:En; [|exfalso; rewrite nth_overflow in Hs; [discriminate Hs|apply nth_error_None; exact En]].
    rewrite (nth_error_nth _ _ None En) in Hs. subst o. reflexivity.
Qed.

Section LineDisk.
Variables (st : settings) (w : world) (cap : nat) (zone : Z -> Z) (v : Collector.environment) (on : bool) (marshal : EventServer.flow_event -> option bytes).
Variables (z : bytes -> bytes) (k0 : bytes -> option bytes) (g : prog) (k : disk).
Notation cf := (main_cf st).
Notation anon := (main_anon (f_anon st)).
Notation log := (log_of w cf (g_sent g)).
Hypothesis (Hcap : 1 <= cap).
Hypothesis (Hr : run_of w cf cap anon (json_line zone) (header_line zone) v (f_reps st) on marshal z k0 (g, k)).
Hypothesis (Hm : g_main g = MExit) (Hu : usual zone w cf (g_sent g)).

Lemma disk_lines wr p : ACreate wr p ∈ log -> exists md x xs, d_file k p = Some (z x) /\ AHeader wr md ∈ log /\ x = concat (map (fun y => y ++ [x0a]) xs) /\
  Forall2 (SpecLine.record_text zone) (mkar zero_time None [] (Some md) :: omap (hidden anon) (queued (file_actions wr log))) xs /\
  forall q, q ∈ queued (file_actions wr log) -> exists t m, made_of cf (g_sent g) q t m.
Proof using Hcap Hr Hm Hu.
  intros I. destruct (finished_run st w cap zone v on marshal z k0 g k Hr Hm Hu) as (En & Wg & R). pose proof (disk_sys _ _ _ _ _ _ _ _ _ _ R) as Ry. cbn [fst] in Ry.
  destruct Hu as [U1 U2 U3 U4 [U5 U6] U7 U8 U9 U10].
  pose proof (C72_final w cf cap anon (json_line zone) (header_line zone) z (main_anon_len _) (cf_marsh st) (g_sent g) U3 U2 U1 (C72_distinct w cf _ U10) k0 (g_sys g) k R Wg wr p I) as D.
  destruct (C30_wait w cf cap anon (json_line zone) (header_line zone) (main_anon_len _) (cf_marsh st) (g_sent g) U3 U2 U1 (g_sys g) Ry Wg) as [Fin A].
  destruct (C28_final w cf cap anon (json_line zone) (header_line zone) (main_anon_len _) (cf_marsh st) (g_sent g) U3 (g_sys g) Ry Fin) as [Es B].
  assert (X : exists f, y_files (g_sys g) !! wr = Some f).
  { rewrite (B wr). unfold final_file. assert (J : ACreate wr p ∈ file_actions wr log)
      by (unfold file_actions; apply elem_of_list_In, List.filter_In; split; [by apply elem_of_list_In | cbn; by rewrite Nat.eqb_refl]).
    unfold log_of in J. destruct (SaverFiles.file_histories w cf _ wr (SaverSteps.message_saver_loop_steps w cf (g_sent g))) as [E|(cl & q & c & md & recs & path & E & _)];
      rewrite E in J |- *; [by apply elem_of_nil in J | cbn; eauto]. }
  destruct X as (f & F). destruct (A wr f F) as [_ Df].
  destruct (LineFiles.file_lines w cf cap anon zone (main_anon_len _) (cf_marsh st) (g_sent g) U3 U4 U5 U9 (g_sys g) wr f Hcap U2 U1 Ry F) as (md & Hmd & xs & rest & Fx & Dx & Rx).
  rewrite (Rx Wg), app_nil_r in Dx.
  exists md, (contents anon (json_line zone) (header_line zone) wr log), xs. split; [exact D|]. split; [exact Hmd|]. split; [rewrite <- Dx; symmetry; exact Df|]. split; [exact Fx|].
  intros q Hq. destruct (accepted_from cf (g_sent g) q) as (t & m & ar & Rm & Em & Eq).
  - eapply (queued_accepted w cf cap anon zone (cf_marsh st) (g_sent g) (g_sys g) wr q Ry); [exact Es|exact Hq].
  - exists t, m. split; [exact Rm|]. exists ar. split; [exact Em|exact Eq].
Qed.
End LineDisk.

(** When main has returned, every file that the program created is on disk, named
    for a connection.  Decompressed it consists of lines in the form of SpecLine.v:
    one for the metadata (the UUID and the number that are in the file's name), and
    one for each of a number of messages about the connection that the kernel sent
    and the command line did not exclude. *)
Theorem C75_disk : forall lib args env st, distinct lib -> main_flags lib args env = Goes st ->
  forall w cap zone v on marshal z unz k0 g k, 1 <= cap -> (forall x, unz (z x) = x) ->
  run_of w (main_cf st) cap (main_anon (f_anon st)) (json_line zone) (header_line zone) v (f_reps st) on marshal z k0 (g, k) ->
  g_main g = MExit -> usual zone w (main_cf st) (g_sent g) ->
  exists ips ports, told_to_exclude lib args env ips ports /\
  forall p, p ∈ paths (log_of w (main_cf st) (g_sent g)) -> exists cookie seq c md x0 rs xs,
    named_for (uuid_prefix w) cookie seq p /\ (exists K, SpecPath.padded 16 16 K cookie /\ md_uuid md = uuid_prefix w ++ str "_" ++ K) /\ md_seq md = Z.of_nat seq /\
    d_file k p = Some c /\ unz c = concat (map (fun y => y ++ [x0a]) (x0 :: xs)) /\
    SpecLine.record_text zone (mkar zero_time None [] (Some md)) x0 /\ Forall2 (SpecLine.record_text zone) rs xs /\
    Forall (fun r => exists t m, received (g_sent g) t m /\ h_type (m_header m) = 20%N /\ 72 <= length (data_of m) /\ ~ unwanted ips ports (raw_of m) /\
      hdr_cookie (raw_of m) = cookie /\ record_of (main_anon (f_anon st)) t m r) rs.
Proof.
  intros lib args env st Hd Hg w cap zone v on marshal z unz k0 g k Hcap Hz Hr Hm Hu.
  destruct (told lib args env st Hd Hg) as (ips & ports & T & X). exists ips, ports. split; [exact T|]. intros p I. apply paths_in in I as (wr & I).
  destruct (file_named _ _ _ _ _ I) as (cookie & seq & md & Nf & _ & One & Uu & Sq & Ck).
  destruct (disk_lines st w cap zone v on marshal z k0 g k Hcap Hr Hm Hu wr p I) as (md' & x & xs & D & Hmd & Ex & F & Mk). rewrite (One md' Hmd) in F.
  inversion F as [|? x0 ? xs' F0 F1 E1 E2]; subst xs. exists cookie, seq, (z x), md, x0, (omap (hidden (main_anon (f_anon st))) (queued (file_actions wr (log_of w (main_cf st) (g_sent g))))), xs'.
  split; [exact Nf|]. split; [exact Uu|]. split; [exact Sq|]. split; [exact D|]. split; [rewrite Hz; exact Ex|]. split; [exact F0|]. split; [exact F1|].
  apply Forall_forall. intros r Ir. apply elem_of_list_omap in Ir as (q & Iq & Hh). destruct (Mk q Iq) as (t & m & Mo). exists t, m.
  pose proof (record_of_made _ _ _ _ _ _ _ Mo Hh) as Ro. specialize (Ck q Iq). destruct Mo as (Rm & ar & Em & ->). split; [exact Rm|].
  destruct (make_ret_some m _ ar Em) as (Ht & Hl & _ & ? & ? & _ & _ & _ & _ & Er & _). split; [exact Ht|]. split; [exact Hl|].
  split; [intros Un; assert (N : make_archival_record m (excl (main_cf st)) = Ret None) by (apply X; auto); congruence|].
  split; [unfold rec_cookie, header in Ck; cbn [ar_raw] in Ck; rewrite Er in Ck; exact Ck|exact Ro].
Qed.
Print Assumptions C75_disk.

(** And if no file operation failed, a well-formed message about an IPv4 or IPv6
    connection that the command line does not exclude and that the poll before did
    not report has its line in a file named for the connection. *)
Theorem C75_disk_new : forall lib args env st, distinct lib -> main_flags lib args env = Goes st ->
  exists ips ports, told_to_exclude lib args env ips ports /\
  forall w cap zone v on marshal z unz k0 g k, 1 <= cap -> (forall x, unz (z x) = x) ->
  run_of w (main_cf st) cap (main_anon (f_anon st)) (json_line zone) (header_line zone) v (f_reps st) on marshal z k0 (g, k) ->
  g_main g = MExit -> usual zone w (main_cf st) (g_sent g) -> io_ok w ->
  forall before b after t m, g_sent g = before ++ b :: after -> received [b] t m ->
  h_type (m_header m) = 20%N -> 72 <= length (data_of m) -> (exists l, wire_area l (area_of m)) ->
  (hdr_family (raw_of m) = 2 \/ hdr_family (raw_of m) = 10)%N -> hdr_cookie (raw_of m) <> 0%N -> ~ unwanted ips ports (raw_of m) ->
  (forall b' t' m', last before = Some b' -> received [b'] t' m' -> hdr_cookie (raw_of m') <> hdr_cookie (raw_of m)) ->
  exists p seq c x r y, named_for (uuid_prefix w) (hdr_cookie (raw_of m)) seq p /\ d_file k p = Some c /\
    unz c = concat (map (fun y => y ++ [x0a]) x) /\ y ∈ x /\ record_of (main_anon (f_anon st)) t m r /\ SpecLine.record_text zone r y.
Proof.
  intros lib args env st Hd Hg. destruct (told lib args env st Hd Hg) as (ips & ports & T & X). exists ips, ports. split; [exact T|].
  intros w cap zone v on marshal z unz k0 g k Hcap Hz Hr Hm Hu Hio before b after t m E Rm Ht Hl (l & Hw) Hf Hc Hx Hnew.
  destruct (new_accepted st before b t m ips ports X Rm Ht Hl (ex_intro _ l Hw) Hf Hc Hx Hnew) as (ar & l1 & l2 & Em & Ea & C1 & C2 & C3).
  set (r := mkar t (ar_raw ar) (ar_attrs ar) (ar_meta ar)) in *.
  pose proof (u_parses _ _ _ _ Hu) as U1. pose proof (u_comparable _ _ _ _ Hu) as U2. rewrite E in U1, U2.
  pose proof (saved_queued w (main_cf st) Hio (cf_marsh st) (u_order _ _ _ _ Hu) before b after U1 U2 l1 r l2 Ea C1 C3) as Q. rewrite <- E in Q.
  apply queued_file in Q as (wr & p & I & Q).
  destruct (file_named _ _ _ _ _ I) as (cookie & seq & md & Nf & _ & _ & _ & _ & Ck). rewrite <- (Ck r Q) in Nf.
  destruct (disk_lines st w cap zone v on marshal z k0 g k Hcap Hr Hm Hu wr p I) as (md' & x & xs & D & Hmd & Ex & F & _).
  assert (Mo : made_of (main_cf st) (g_sent g) r t m).
  { split; [|by exists ar]. destruct Rm as (b' & Hb & H). apply elem_of_list_singleton in Hb as ->. exists b. split; [rewrite E; apply elem_of_app; right; apply elem_of_list_here | exact H]. }
  destruct (make_ret_some m _ ar Em) as (_ & _ & _ & ? & ? & _ & _ & _ & _ & Er & _).
  assert (Hh : header r = raw_of m) by (unfold header, r; cbn [ar_raw]; by rewrite Er).
  assert (L72 : length (header r) = 72) by (rewrite Hh; unfold raw_of; rewrite firstn_length; lia).
  destruct (proj1 (hidden_known (main_anon (f_anon st)) r L72) C2) as (r' & Hr').
  assert (Ir : r' ∈ mkar zero_time None [] (Some md') :: omap (hidden (main_anon (f_anon st))) (queued (file_actions wr (log_of w (main_cf st) (g_sent g))))).
  { apply elem_of_cons. right. apply elem_of_list_omap. by exists r. }
  apply elem_of_list_lookup in Ir as (j & Hj). destruct (Forall2_lookup_l _ _ _ _ _ F Hj) as (y & Hy & Ty).
  exists p, seq, (z x), xs, r', y. unfold rec_cookie in Nf. rewrite Hh in Nf. split; [exact Nf|]. split; [exact D|]. split; [rewrite Hz; exact Ex|].
  split; [by eapply elem_of_list_lookup_2|]. split; [exact (record_of_made _ _ _ _ _ _ _ Mo Hr')|exact Ty].
Qed.
Print Assumptions C75_disk_new.

(** The case is that of C73 (c73_case in P_Whole.v); the beginning of its first
    file: *)
Example c75_disk_line : let head := str "{""Timestamp"":""0001-01-01T00:00:00Z"",""Metadata"":{""UUID"":""" ++ uuid_prefix w0 ++
    str "_0000000000000007"",""Sequence"":0,""StartTime"":""2020-01-01T00:00:00Z""}}" ++ [x0a] ++ str "{""Timestamp"":""2020-01-01T00:00:00Z"",""RawIDM"":""AgEAAAG7E4gKAAAA" in
  firstn (length head) (contents (main_anon MNetblock) (json_line utc) (header_line utc) 0 (log_of w0 (main_cf set2) sent2)) = head.
Proof. vm_compute. reflexivity. Qed.
