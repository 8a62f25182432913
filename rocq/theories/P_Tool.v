(** Property C76: from the kernel's messages to the table that csvtool prints. *)
From Coq Require Import Strings.String.
From stdpp Require Import gmap relations.
From Coq Require Import NArith ZArith Lia.
From Verif Require Import Zstd ZstdReader GoBase GoBaseFacts GoTime Inetdiag Netlink SpecNetlink RecordFacts SpecCompare Snapshot SpecSnapshot SpecJson Archive SpecArchive
  Cache Saver SpecSaver System SpecSystem SystemHidden SpecRecovered SmallFiles SpecPipeline PipelineFacts SpecConfig MainConfig P_Main Flags SpecFlags P_Flags
  Anonymizer P_Privacy Program SpecProgram ProgramFacts ProgramEnd Disk SpecDisk DiskFacts Whole SpecWhole WholeFacts
  Samples P_Saver P_System P_Archive P_Pipeline P_Program P_Disk P_Whole CsvTable SpecTable TableFacts P_Table SpecTool ToolFacts FileNames.
From Verif Require CsvTool SpecCsv CsvFacts P_Csv Reader SpecReader Collector SpecCollector ProgramRuns.
Local Open Scope list_scope.

Lemma made_cookie cf bs q t m : made_of cf bs q t m -> rec_cookie q = hdr_cookie (raw_of m).
Proof.
  intros (_ & ar & Em & ->). destruct (make_ret_some m _ ar Em) as (_ & _ & _ & ? & ? & _ & _ & _ & _ & Er & _). unfold rec_cookie, header. cbn [ar_raw]. by rewrite Er.
Qed.

(** What csvtool does with a file of this decompressed content, given by name with
    zstd beside or on standard input: it prints out and ends well, whatever the
    schedule, unless the zstd process fails. *)
Definition prints (to_csv : list snapshot -> bytes * bool) (x out : bytes) : Prop :=
  (forall s out' e, CsvTool.treach to_csv (mkzf x true) (s, CsvTool.TDone out' e) -> out' = out /\ e = CsvTool.Exit0) /\
  (forall s, CsvTool.treach to_csv (mkzf x true) (s, CsvTool.TReading) -> rp_proc s <> PExited false -> rp_proc s <> PDead ->
     exists s', rtc (CsvTool.tstep to_csv (mkzf x true)) (s, CsvTool.TReading) (s', CsvTool.TDone out CsvTool.Exit0)) /\
  (forall wd args i, P_Csv.names wd args i -> SpecReader.solid i -> SpecReader.contents i = x -> CsvTool.csvtool to_csv wd args = (out, CsvTool.Exit0)).

(** The row of the metadata: only a time, that of a record without one. *)
Definition metadata_row (row : list bytes) : Prop :=
  exists s, shown_in s row /\ sn_time s = 1243641599000000000%Z /\ sn_idm s = None /\ sn_tcp s = None /\ sn_observed s = 0%N.

Section Tool.
Variables (st : settings) (w : world) (cap : nat) (zone zone' : Z -> Z) (blanks : bool) (v : Collector.environment) (on : bool) (marshal : EventServer.flow_event -> option bytes).
Variables (z : bytes -> bytes) (k0 : bytes -> option bytes) (g : prog) (k : disk).
Notation cf := (main_cf st).
Notation anon := (main_anon (f_anon st)).
Notation log := (log_of w cf (g_sent g)).
Hypothesis (Hcap : 1 <= cap).
Hypothesis (Hr : run_of w cf cap anon (json_line zone) (header_line zone) v (f_reps st) on marshal z k0 (g, k)).
Hypothesis (Hm : g_main g = MExit) (Hu : usual zone w cf (g_sent g)).
Hypothesis (Hz' : Forall (writable_time zone') (1243641599000000000%Z :: block_times (g_sent g))).

Lemma file_table wr p : ACreate wr p ∈ log -> exists c x out row0 rows, d_file k p = Some c /\ c = z x /\ prints (to_csv zone' blanks) x out /\
  table_text (actual_header :: row0 :: rows) out /\ metadata_row row0 /\
  Forall2 (fun q row => (exists t m, made_of cf (g_sent g) q t m) /\ forall t m, made_of cf (g_sent g) q t m -> row_of anon t m row)
    (List.filter known_family (queued (file_actions wr log))) rows.
Proof using Hcap Hr Hm Hu Hz'.
  intros I. destruct (finished_run st w cap zone v on marshal z k0 g k Hr Hm Hu) as (En & Wg & R). pose proof (disk_sys _ _ _ _ _ _ _ _ _ _ R) as Ry. cbn [fst] in Ry.
  destruct Hu as [U1 U2 U3 U4 [U5 U6] U7 U8 U9 U10].
  pose proof (C72_final w cf cap anon (json_line zone) (header_line zone) z (main_anon_len _) (cf_marsh st) (g_sent g) U3 U2 U1 (C72_distinct w cf _ U10) k0 (g_sys g) k R Wg wr p I) as D.
  destruct (C30_wait w cf cap anon (json_line zone) (header_line zone) (main_anon_len _) (cf_marsh st) (g_sent g) U3 U2 U1 (g_sys g) Ry Wg) as [Fin A].
  destruct (C28_final w cf cap anon (json_line zone) (header_line zone) (main_anon_len _) (cf_marsh st) (g_sent g) U3 (g_sys g) Ry Fin) as [_ B].
  assert (X : exists f, y_files (g_sys g) !! wr = Some f).
  { rewrite (B wr). unfold final_file. assert (J : ACreate wr p ∈ file_actions wr log)
      by (unfold file_actions; apply elem_of_list_In, List.filter_In; split; [by apply elem_of_list_In | cbn; by rewrite Nat.eqb_refl]).
    unfold log_of in J. destruct (SaverFiles.file_histories w cf _ wr (SaverSteps.message_saver_loop_steps w cf (g_sent g))) as [E|(cl & q & c & md & recs & path & E & _)];
      rewrite E in J |- *; [by apply elem_of_nil in J | cbn; eauto]. }
  destruct X as (f & F). destruct (A wr f F) as [_ Df].
  set (x := contents anon (json_line zone) (header_line zone) wr log) in *.
  change (f_data f = x) in Df.
  assert (T : forall wd args i, P_Csv.names wd args i -> SpecReader.solid i -> SpecReader.contents i = x -> exists out row0 rows,
    CsvTool.csvtool (to_csv zone' blanks) wd args = (out, CsvTool.Exit0) /\ table_text (actual_header :: row0 :: rows) out /\ metadata_row row0 /\
    Forall2 (fun q row => exists s, shown_in s row /\ (exists t m, made_of cf (g_sent g) q t m) /\ forall t m, made_of cf (g_sent g) q t m -> shows anon t m s)
      (List.filter known_family (queued (file_actions wr log))) rows).
  { intros wd args i Ni Si Ci.
    exact (C74_saver_files blanks zone' w cf cap anon zone (main_anon_len _) (cf_marsh st) (g_sent g) U3 U4 Hz' U5 U9 U7 U6 (g_sys g) wr f i wd args Hcap U2 U1 Ry Wg F Ni Si
      (eq_trans Ci (eq_sym Df)) U8). }
  assert (Sh : Forall SpecReader.short (SpecReader.lines x)).
  { rewrite <- Df. exact (lines_short w cf cap anon zone (main_anon_len _) (cf_marsh st) (g_sent g) U3 U4 U5 U9 U7 U6 (g_sys g) wr f Hcap U2 U1 Ry F). }
  set (i0 := Reader.mkin (match x with [] => [] | _ => [x] end) false ErrEOF).
  assert (S0 : SpecReader.solid i0) by (unfold SpecReader.solid, i0; cbn [Reader.in_chunks]; destruct x; repeat constructor; discriminate).
  assert (C0 : SpecReader.contents i0 = x) by (unfold SpecReader.contents, i0; cbn [Reader.in_chunks]; destruct x; [reflexivity|cbn [concat]; apply app_nil_r]).
  set (wd0 := CsvTool.mkworld i0 (fun _ => None) (fun _ => None)).
  pose proof (P_Csv.names_stdin wd0) as N0. cbn [wd0 CsvTool.w_stdin] in N0.
  destruct (T wd0 [] i0 N0 S0 C0) as (out & row0 & rows & O & Tt & M & Fr).
  assert (Sh0 : Forall SpecReader.short (SpecReader.lines (SpecReader.contents i0))) by (rewrite C0; exact Sh).
  destruct (proj1 (P_Csv.C56_output _ _ _ _ _ N0 S0 Sh0) O) as (ss & Y & Ec). rewrite C0 in Y.
  exists (z x), x, out, row0, rows. split; [exact D|]. split; [reflexivity|]. split; [|split; [exact Tt|split; [exact M|]]].
  - destruct (P_Csv.C56_converted (to_csv zone' blanks) (mkzf x true) ss out eq_refl Sh Y Ec) as [Q1 Q2]. split; [exact Q1|]. split; [exact Q2|].
    intros wd args i Ni Si Ci. apply (P_Csv.C56_output _ _ _ i _ Ni Si); [rewrite Ci; exact Sh|]. exists ss. rewrite Ci. split; [exact Y|exact Ec].
  - eapply Forall2_impl; [exact Fr|]. intros q row (s & S & Ex & Al). split; [exact Ex|]. intros t m Mo. exact (row_ok anon t m s row (main_anon_len _) (Al t m Mo) S).
Qed.
End Tool.

(** ** When main has returned *)
(** Every file that the program created is on disk, named for a connection, and
    csvtool makes a table of it: header, metadata, and rows each of which tells,
    cell by cell, of a message about the connection that the kernel sent and the
    command line did not exclude. *)
Theorem C76_sound : forall lib args env st, distinct lib -> main_flags lib args env = Goes st ->
  forall w cap zone zone' blanks v on marshal z unz k0 g k, 1 <= cap -> (forall x, unz (z x) = x) ->
  run_of w (main_cf st) cap (main_anon (f_anon st)) (json_line zone) (header_line zone) v (f_reps st) on marshal z k0 (g, k) ->
  g_main g = MExit -> usual zone w (main_cf st) (g_sent g) -> Forall (writable_time zone') (1243641599000000000%Z :: block_times (g_sent g)) ->
  exists ips ports, told_to_exclude lib args env ips ports /\ collected v (g_sent g) /\
  forall p, p ∈ paths (log_of w (main_cf st) (g_sent g)) ->
    exists cookie seq c out row0 rows, named_for (uuid_prefix w) cookie seq p /\ d_file k p = Some c /\ prints (to_csv zone' blanks) (unz c) out /\ table_text (actual_header :: row0 :: rows) out /\ metadata_row row0 /\
      Forall (fun row => exists t m, received (g_sent g) t m /\ h_type (m_header m) = 20%N /\ 72 <= length (data_of m) /\ ~ unwanted ips ports (raw_of m) /\
                hdr_cookie (raw_of m) = cookie /\ row_of (main_anon (f_anon st)) t m row) rows.
Proof.
  intros lib args env st Hd Hg w cap zone zone' blanks v on marshal z unz k0 g k Hcap Hz Hr Hm Hu Hz'.
  destruct (told lib args env st Hd Hg) as (ips & ports & T & X). exists ips, ports. split; [exact T|]. split.
  - apply (invs _ _ _ _ _ _ _ _ _ _ _ (run_possible _ _ _ _ _ _ _ _ _ _ _ _ _ Hr)).
  - intros p I. apply paths_in in I as (wr & I). destruct (file_named _ _ _ _ _ I) as (cookie & seq & md & Nf & _ & _ & _ & _ & Ck).
    destruct (file_table st w cap zone zone' blanks v on marshal z k0 g k Hcap Hr Hm Hu Hz' wr p I) as (c & x & out & row0 & rows & D & -> & Pr & Tt & M & F).
    exists cookie, seq, (z x), out, row0, rows. rewrite Hz. do 5 (split; [assumption|]). eapply Forall2_Forall_r; [exact F|]. apply Forall_forall. intros q Hq row ((t & m & Mo) & Sh).
    exists t, m. specialize (Sh t m Mo). pose proof (made_cookie _ _ _ _ _ Mo) as Mc. destruct Mo as (Rm & ar & Em & _). split; [exact Rm|].
    destruct (make_ret_some m _ ar Em) as (Ht & Hl & _). split; [exact Ht|]. split; [exact Hl|].
    split; [|split; [rewrite <- Mc; apply Ck; apply elem_of_list_In, List.filter_In in Hq as [Hq _]; by apply elem_of_list_In|exact Sh]].
    intros Un. assert (N : make_archival_record m (excl (main_cf st)) = Ret None) by (apply X; auto). congruence.
Qed.
Print Assumptions C76_sound.

(** And no row is missing: if no file operation failed, every record of an IPv4 or
    IPv6 connection that is new or has changed since the poll before has its row in
    the table of one of the files. *)
Theorem C76_complete : forall lib args env st, distinct lib -> main_flags lib args env = Goes st ->
  forall w cap zone zone' blanks v on marshal z unz k0 g k, 1 <= cap -> (forall x, unz (z x) = x) ->
  run_of w (main_cf st) cap (main_anon (f_anon st)) (json_line zone) (header_line zone) v (f_reps st) on marshal z k0 (g, k) ->
  g_main g = MExit -> usual zone w (main_cf st) (g_sent g) -> Forall (writable_time zone') (1243641599000000000%Z :: block_times (g_sent g)) -> io_ok w ->
  forall before b after, g_sent g = before ++ b :: after -> forall l1 r l2, accepted (main_cf st) b = l1 ++ r :: l2 ->
  rec_cookie r <> 0%N -> known_family r = true ->
  (forall o, reference (last_accepted (main_cf st) before) l1 (rec_cookie r) = Some o -> ~ no_significant_change o r) ->
  exists p seq c out row0 rows row, p ∈ paths (log_of w (main_cf st) (g_sent g)) /\ named_for (uuid_prefix w) (rec_cookie r) seq p /\ d_file k p = Some c /\
    prints (to_csv zone' blanks) (unz c) out /\ table_text (actual_header :: row0 :: rows) out /\ row ∈ rows /\ forall t m, made_of (main_cf st) (g_sent g) r t m -> row_of (main_anon (f_anon st)) t m row.
Proof.
  intros lib args env st Hd Hg w cap zone zone' blanks v on marshal z unz k0 g k Hcap Hz Hr Hm Hu Hz' Hio before b after E l1 r l2 Ea Hc Hk Hnew.
  pose proof (u_parses _ _ _ _ Hu) as U1. pose proof (u_comparable _ _ _ _ Hu) as U2. rewrite E in U1, U2.
  pose proof (saved_queued w (main_cf st) Hio (cf_marsh st) (u_order _ _ _ _ Hu) before b after U1 U2 l1 r l2 Ea Hc Hnew) as Q. rewrite <- E in Q.
  apply queued_file in Q as (wr & p & I & Q).
  destruct (file_table st w cap zone zone' blanks v on marshal z k0 g k Hcap Hr Hm Hu Hz' wr p I) as (c & x & out & row0 & rows & D & -> & Pr & Tt & M & F).
  assert (Qf : r ∈ List.filter known_family (queued (file_actions wr (log_of w (main_cf st) (g_sent g))))) by (apply elem_of_list_In, List.filter_In; split; [by apply elem_of_list_In | exact Hk]).
  apply elem_of_list_lookup in Qf as (j & Qj). destruct (Forall2_lookup_l _ _ _ _ _ F Qj) as (row & Sj & _ & Sh).
  destruct (file_named _ _ _ _ _ I) as (cookie & seq & md & Nf & _ & _ & _ & _ & Ck). rewrite <- (Ck r Q) in Nf.
  exists p, seq, (z x), out, row0, rows, row. rewrite Hz. split; [apply paths_in; by exists wr|]. do 4 (split; [assumption|]). split; [by eapply elem_of_list_lookup_2 | exact Sh].
Qed.
Print Assumptions C76_complete.

(** In terms of messages alone: a well-formed message about an IPv4 or IPv6
    connection that the command line does not exclude and that the poll before did
    not report has its row. *)
Theorem C76_new_connection : forall lib args env st, distinct lib -> main_flags lib args env = Goes st ->
  exists ips ports, told_to_exclude lib args env ips ports /\
  forall w cap zone zone' blanks v on marshal z unz k0 g k, 1 <= cap -> (forall x, unz (z x) = x) ->
  run_of w (main_cf st) cap (main_anon (f_anon st)) (json_line zone) (header_line zone) v (f_reps st) on marshal z k0 (g, k) ->
  g_main g = MExit -> usual zone w (main_cf st) (g_sent g) -> Forall (writable_time zone') (1243641599000000000%Z :: block_times (g_sent g)) -> io_ok w ->
  forall before b after t m, g_sent g = before ++ b :: after -> received [b] t m ->
  h_type (m_header m) = 20%N -> 72 <= length (data_of m) -> (exists l, wire_area l (area_of m)) ->
  (hdr_family (raw_of m) = 2 \/ hdr_family (raw_of m) = 10)%N -> hdr_cookie (raw_of m) <> 0%N -> ~ unwanted ips ports (raw_of m) ->
  (forall b' t' m', last before = Some b' -> received [b'] t' m' -> hdr_cookie (raw_of m') <> hdr_cookie (raw_of m)) ->
  exists p seq c out row0 rows row, p ∈ paths (log_of w (main_cf st) (g_sent g)) /\ named_for (uuid_prefix w) (hdr_cookie (raw_of m)) seq p /\ d_file k p = Some c /\
    prints (to_csv zone' blanks) (unz c) out /\ table_text (actual_header :: row0 :: rows) out /\ row ∈ rows /\ row_of (main_anon (f_anon st)) t m row.
Proof.
  intros lib args env st Hd Hg. destruct (told lib args env st Hd Hg) as (ips & ports & T & X). exists ips, ports. split; [exact T|].
  intros w cap zone zone' blanks v on marshal z unz k0 g k Hcap Hz Hr Hm Hu Hz' Hio before b after t m E Rm Ht Hl (l & Hw) Hf Hc Hx Hnew.
  destruct (new_accepted st before b t m ips ports X Rm Ht Hl (ex_intro _ l Hw) Hf Hc Hx Hnew) as (ar & l1 & l2 & Em & Ea & C1 & C2 & C3).
  destruct (C76_complete lib args env st Hd Hg w cap zone zone' blanks v on marshal z unz k0 g k Hcap Hz Hr Hm Hu Hz' Hio before b after E l1 _ l2 Ea C1 C2 C3)
    as (p & seq & c & out & row0 & rows & row & I & Nf & D & Pr & Tt & Ir & Al).
  assert (Mo : made_of (main_cf st) (g_sent g) (mkar t (ar_raw ar) (ar_attrs ar) (ar_meta ar)) t m).
  { split; [|by exists ar]. destruct Rm as (b' & Hb & H). apply elem_of_list_singleton in Hb as ->. exists b. split; [rewrite E; apply elem_of_app; right; apply elem_of_list_here | exact H]. }
  rewrite (made_cookie _ _ _ _ _ Mo) in Nf. exists p, seq, c, out, row0, rows, row. do 6 (split; [assumption|]). by apply Al.
Qed.
Print Assumptions C76_new_connection.

(** ** A case: that of C73 (P_Whole.v), and csvtool in a zone of +5:30 *)
Definition india (_ : Z) : Z := 330%Z.
Example c76_case : let g := run2 (json_line utc) (header_line utc) 2000 in
  distinct [] /\ main_flags [] args2 noenv = Goes set2 /\
  (forall z k0, exists k, run_of w0 (main_cf set2) 1 (main_anon (f_anon set2)) (json_line utc) (header_line utc) (v_of kernel2) (f_reps set2) false (fun _ => None) z k0 (g, k)) /\
  g_main g = MExit /\ usual utc w0 (main_cf set2) (g_sent g) /\ Forall (writable_time india) (1243641599000000000%Z :: block_times (g_sent g)) /\ io_ok w0.
Proof.
  intros g. destruct c73_case as (A & B & C & D & E & F & _). do 5 (split; [assumption|]). split; [|exact F]. subst g. rewrite (proj1 run2_sent).
  apply (Forall_impl (fun t => (-62167219200 * 1000000000 <= t < 253402200000 * 1000000000)%Z)); [apply (bool_decide_unpack _); vm_compute; exact I|].
  intros t H. unfold writable_time, india. lia.
Qed.
(** The table of the first file: header, metadata, and the two different reports of
    connection 7; the row of the first, with the last byte of each address hidden. *)
Definition table2 : bytes :=
  match CsvTool.csvtool (to_csv india true)
    (CsvTool.mkworld (Reader.mkin [contents (main_anon MNetblock) (json_line utc) (header_line utc) 0 (log_of w0 (main_cf set2) sent2)] false ErrEOF) (fun _ => None) (fun _ => None)) [] with
  | (out, CsvTool.Exit0) => out | _ => [] end.
Example c76_table : length (List.filter (Byte.eqb x0a) table2) = 4 /\
  firstn 101 (skipn (length (write_record header_row) + 131) table2) =
    str "2020-01-01T05:30:00+05:30,2,,2,1,0,0,443,5000,10.0.0.0,192.0.2.0,0,7,0,0,0,0,0,,,,,,,,1,1,1,1,1,1,1,1".
Proof. vm_compute. split; reflexivity. Qed.
