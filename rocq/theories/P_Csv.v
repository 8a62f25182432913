(** Properties C56 and C57: the command csvtool, and the cells for a socket. *)
From Coq Require Import Strings.String.
From stdpp Require Import gmap relations.
From Coq Require Import NArith ZArith Lia.
From Verif Require Import Zstd ZstdReader P_ZstdReader GoBase GoBaseFacts GoTime Layout NetIP Inetdiag Netlink SpecNetlink RecordFacts SpecConfig SpecAddrText AddrTextFacts SpecCompare
  Reader SpecReader ReaderFacts Snapshot SpecSnapshot SnapshotFacts SpecJson Archive SpecArchive ArchiveFacts
  Cache Saver SpecSaver System SpecSystem SystemHidden SpecRecovered RecoveredFacts SmallFiles SpecPipeline PipelineFacts Samples P_Saver P_System P_Archive P_Pipeline
  CsvTool SpecCsv CsvFacts.
From Verif Require P_Text IPTextFacts.
From Verif Require Import Reader SpecReader.
Local Open Scope list_scope.

(** ** C56 *)
(** The source that the arguments name: standard input, or one file, which is
    decompressed if its name ends with ".zst". *)
Inductive names (wd : world) : list bytes -> input -> Prop :=
| names_stdin : names wd [] (w_stdin wd)
| names_compressed x i : w_zstd wd (x ++ [x2e; x7a; x73; x74]) = Some i -> names wd [x ++ [x2e; x7a; x73; x74]] i
| names_file fn i : (forall x, fn <> x ++ [x2e; x7a; x73; x74]) -> w_open wd fn = Some i -> names wd [fn] i.

Lemma suffix_iff fn : has_suffix fn (str ".zst") = true <-> exists x, fn = x ++ [x2e; x7a; x73; x74].
Proof.
  unfold has_suffix. change (str ".zst") with [x2e; x7a; x73; x74]. change (length [x2e; x7a; x73; x74]) with 4. split.
  - intros H. apply andb_prop in H as [A B]. apply Nat.leb_le in A. apply bytes_eqb_eq in B. exists (firstn (length fn - 4) fn). rewrite <- B. symmetry. apply firstn_skipn.
  - intros (x & ->). rewrite app_length. cbn [length]. replace (length x + 4 - 4) with (length x) by lia. rewrite skipn_app, skipn_all, Nat.sub_diag. cbn [app skipn].
    replace (4 <=? length x + 4) with true by (symmetry; apply Nat.leb_le; lia). reflexivity.
Qed.
Lemma names_convert tc wd args i : names wd args i -> csvtool tc wd args = convert tc i.
Proof.
  intros H. destruct H as [|x i H|fn i N H]; [reflexivity| |]; cbn [csvtool]; unfold open_file.
  - rewrite (proj2 (suffix_iff _)) by (exists x; reflexivity). rewrite H. reflexivity.
  - destruct (has_suffix fn (str ".zst")) eqn:E; [apply suffix_iff in E as (x & E); contradiction (N x E)|]. rewrite H. reflexivity.
Qed.
Lemma names_or_not tc wd args : (exists i, names wd args i) \/ csvtool tc wd args = ([], Fatal).
Proof.
  destruct args as [|fn [|x l]]; [left; eexists; constructor| |right; reflexivity]. cbn [csvtool]. unfold open_file. destruct (has_suffix fn (str ".zst")) eqn:E.
  - destruct (w_zstd wd fn) as [i|] eqn:W; [|right; reflexivity]. left. exists i. apply suffix_iff in E as (x & ->). constructor. exact W.
  - destruct (w_open wd fn) as [i|] eqn:W; [|right; reflexivity]. left. exists i. apply names_file; [|exact W]. intros x ->.
    assert (K : has_suffix (x ++ [x2e; x7a; x73; x74]) (str ".zst") = true) by (apply suffix_iff; exists x; reflexivity). congruence.
Qed.

(** csvtool succeeds exactly if every line of its source is a record that decodes,
    and then prints the CSV of all the snapshots, in order (lines below 64 KiB). *)
Theorem C56_output : forall to_csv wd args i out, names wd args i -> solid i -> Forall short (lines (contents i)) ->
  (csvtool to_csv wd args = (out, Exit0) <-> exists ss, says (contents i) ss /\ to_csv ss = (out, true)).
Proof. intros tc wd args i out N S0 Sh. rewrite (names_convert tc wd args i N). exact (convert_ok tc i out S0 Sh). Qed.
Print Assumptions C56_output.

(** It prints nothing unless the whole source could be read. *)
Theorem C56_nothing_else : forall to_csv wd args out e, csvtool to_csv wd args = (out, e) -> out <> [] ->
  exists i, names wd args i /\ (solid i -> Forall short (lines (contents i)) -> exists ss, says (contents i) ss /\ out = fst (to_csv ss)).
Proof.
  intros tc wd args out e H N. destruct (names_or_not tc wd args) as [(i & Ni)|F]; [|rewrite F in H; injection H as <- _; contradiction N; reflexivity].
  exists i. split; [exact Ni|]. intros S0 Sh. rewrite (names_convert tc wd args i Ni) in H. exact (convert_output tc i out e S0 Sh H N).
Qed.
Print Assumptions C56_nothing_else.

(** A compressed file, with the zstd process running beside: whatever the
    schedule, if csvtool ends well then the file was complete and undamaged, and
    all of it has been converted. *)
Theorem C56_compressed : forall to_csv f s out, treach to_csv f (s, TDone out Exit0) -> Forall short (lines (content f)) ->
  intact f = true /\ exists ss, says (content f) ss /\ to_csv ss = (out, true).
Proof. exact compressed_ok. Qed.
Print Assumptions C56_compressed.

(** An intact file all of whose lines are records that decode is converted: no
    schedule gives another result, and while the zstd process has not failed the
    result can still be reached. *)
Theorem C56_converted : forall to_csv f ss out, intact f = true -> Forall short (lines (content f)) -> says (content f) ss -> to_csv ss = (out, true) ->
  (forall s out' e, treach to_csv f (s, TDone out' e) -> out' = out /\ e = Exit0) /\
  (forall s, treach to_csv f (s, TReading) -> rp_proc s <> PExited false -> rp_proc s <> PDead ->
     exists s', rtc (tstep to_csv f) (s, TReading) (s', TDone out Exit0)).
Proof.
  intros tc f ss out Hi Sh Y T. split; [intros s out' e H; exact (compressed_result tc f s out' e ss out H Sh Y T)|].
  intros s H P1 P2. destruct (compressed_ends tc f s Hi H P1 P2) as (s' & o & e & St).
  destruct (compressed_result tc f s' o e ss out) as (-> & ->); [|exact Sh|exact Y|exact T|exists s'; exact St].
  unfold treach in *. etransitivity; [exact H|exact St].
Qed.
Print Assumptions C56_converted.

(** The files of a finished run of the saver (conditions of C52_snapshots): one row
    for the metadata, and one for each IPv4 or IPv6 record of the file. *)
Theorem C56_saver_files : forall to_csv w cf cap anon zone, (forall x, length (anon x) = length x) -> 1 <= nmarsh cf ->
  forall bs, all_comparable cf bs ->
  Forall (writable_time zone) (zero_time :: block_times bs) -> utf8 (uuid_prefix w) ->
  (Z.of_nat (length (log_of w cf bs)) <= 9223372036854775807)%Z ->
  Forall (messages_up_to 48000) bs -> (N.of_nat (length (uuid_prefix w)) <= 10000)%N ->
  forall y wr f i wd args, 1 <= cap -> Forall (parses cf) bs -> fair_order w ->
  System.reachable w cf cap anon (json_line zone) (header_line zone) bs y -> y_wg y = 0 -> y_files y !! wr = Some f ->
  names wd args i -> SpecReader.solid i -> SpecReader.contents i = f_data f ->
  (forall t m, SpecPipeline.received bs t m -> named_congestion m) ->
  exists s0 ss, csvtool to_csv wd args = (fst (to_csv (s0 :: ss)), if snd (to_csv (s0 :: ss)) then Exit0 else Fatal) /\
    sn_idm s0 = None /\ sn_tcp s0 = None /\
    Forall2 (fun q s => (exists t m, made_of cf bs q t m) /\ forall t m, made_of cf bs q t m -> shows anon t m s)
      (List.filter known_family (queued (file_actions wr (log_of w cf bs)))) ss.
Proof.
  intros tc w cf cap anon zone Hl Hn bs Hc Ht Hu Hb Hsm Hpre y wr f i wd args Hcap Hp Hf Hr Hw Ef Ni Hs E Hcong.
  destruct (loaded i Hs) as (rs & e & Er & Y & L).
  set (fuel := S (S (length (queued (file_actions wr (log_of w cf bs))) + length rs))).
  destruct (C52_snapshots w cf cap anon zone Hl Hn bs Hc Ht Hu Hb Hsm Hpre y wr f i fuel Hcap Hp Hf Hr Hw Ef Hs E ltac:(unfold fuel; lia) Hcong)
    as (md & s0 & ss & _ & Q & _ & A & B & _ & F).
  exists s0, ss. split; [|split; [exact A|split; [exact B|exact F]]].
  rewrite (names_convert tc wd args i Ni). assert (L2 : length rs < fuel) by (unfold fuel; lia). apply (load_all_ret _ _ _ _ _ _ _ Y L2) in Q.
  apply (load_all_ret _ _ _ _ _ _ _ Y L) in Q. unfold convert. rewrite Q. destruct (tc (s0 :: ss)) as [o [|]]; reflexivity.
Qed.
Print Assumptions C56_saver_files.

(** Samples: a stand-in for gocsv that writes one letter per row. *)
Definition rows (ss : list snapshot) : bytes * bool := (repeat x52 (length ss), true).
Definition json_lines : bytes :=
  str "{""Metadata"":{""UUID"":""u"",""Sequence"":0,""StartTime"":""2020-01-01T00:00:00Z""}}" ++ [x0a] ++
  match marshal (fun _ => 0%Z) (mkar 0 (Some (sample_hdr 2 1 443 5000 (v4 10 0 0 1) (v4 192 0 2 7) 7)) [] None) with Some b => b | None => [] end ++ [x0a].
Definition wd0 : world := mkworld (mkin [json_lines] false ErrEOF)
  (fun fn => if bytes_eqb fn (str "a.jsonl") then Some (mkin [firstn 10 json_lines; skipn 10 json_lines] true ErrEOF) else None) (fun _ => None).
Example c56_case : csvtool rows wd0 [] = ([x52; x52], Exit0) /\ csvtool rows wd0 [str "a.jsonl"] = ([x52; x52], Exit0) /\
  csvtool rows wd0 [str "b.jsonl"] = ([], Fatal) /\ csvtool rows wd0 [str "a.jsonl"; str "a.jsonl"] = ([], Fatal).
Proof. vm_compute. repeat split. Qed.
Example c56_named : names wd0 [str "a.jsonl"] (mkin [firstn 10 json_lines; skipn 10 json_lines] true ErrEOF).
Proof. apply names_file; [|reflexivity]. intros x E. apply (f_equal (fun l => skipn (length l - 4) l)) in E. rewrite app_length, skipn_app in E.
  cbn [length] in E. replace (length x + 4 - 4) with (length x) in E by lia. rewrite skipn_all, Nat.sub_diag in E. vm_compute in E. discriminate E. Qed.
Example c56_short : Forall short (lines json_lines).
Proof. vm_compute. repeat constructor. Qed.
Local Ltac fin Z2 := cbn [rp_out rp_pipe rp_open rp_log rp_proc app length]; first [reflexivity | assumption | discriminate | rewrite Z2; reflexivity | rewrite app_nil_r; reflexivity | lia].
Local Ltac next := cbn [rp_out rp_pipe rp_open rp_log rp_proc app].
(** A file that is being decompressed while main reads: main is done when it has
    seen the end. *)
Definition zf0 : zfile := mkzf json_lines true.
Example c56_compressed : exists s, treach rows zf0 (s, TDone [x52; x52] Exit0).
Proof.
  set (a := firstn 10 json_lines). set (b := skipn 10 json_lines).
  assert (E : json_lines = a ++ b ++ []) by (vm_compute; reflexivity).
  assert (E2 : json_lines = a ++ b) by (vm_compute; reflexivity).
  assert (Na : a <> []) by (vm_compute; discriminate). assert (Nb : b <> []) by (vm_compute; discriminate).
  assert (La : length a + length b <= PIPE_CAP) by (unfold PIPE_CAP; assert (Z.of_nat (length a + length b) <= 65536)%Z by (vm_compute; discriminate); lia).
  assert (C : convert rows (mkin [a; b] false ErrEOF) = ([x52; x52], Exit0)) by (vm_compute; reflexivity).
  assert (Z : content zf0 = a ++ b ++ []) by exact E. assert (Z2 : content zf0 = a ++ b) by exact E2. assert (It : intact zf0 = true) by reflexivity.
  exists (mkr PClosed (a ++ b) [] true [RRead a; RRead b; REof]). clearbody a b. clear E E2. set (z := zf0) in *. clearbody z.
  unfold treach, new_reader.
  eapply rtc_l; [apply t_read; [apply rs_work; apply (p_write z _ a b)|]; fin Z2|]. next.
  eapply rtc_l; [apply t_read; [apply rs_user; apply (u_read _ a [])|]; fin Z2|]. next.
  eapply rtc_l; [apply t_read; [apply rs_work; apply (p_write z _ b [])|]; fin Z2|]. next.
  eapply rtc_l; [apply t_read; [apply rs_user; apply (u_read _ b [])|]; fin Z2|]. next.
  eapply rtc_l; [apply t_read; [apply rs_work; apply p_end|]; fin Z2|]. next. rewrite It.
  eapply rtc_l; [apply t_read; [apply rs_work; apply p_close|]; fin Z2|]. next.
  eapply rtc_l; [apply t_read; [apply rs_user; apply u_eof|]; fin Z2|]. next.
  eapply rtc_l; [eapply t_eof; [discriminate|right; right; left|exact C]|]. apply rtc_refl.
Qed.

(** A line of 64 KiB or more ends the conversion: the rest is left out, and the
    command still succeeds. *)
Definition long_text : bytes := json_lines ++ x7b :: repeat x20 (N.to_nat 65535) ++ [x7d; x0a] ++ json_lines.
Theorem C56_long_line_refuted : exists wd i out, names wd [] i /\ solid i /\ in_err i = ErrEOF /\
  csvtool rows wd [] = (out, Exit0) /\ length out = 2 /\ length (List.filter (Byte.eqb x0a) (contents i)) = 5.
Proof.
  exists (mkworld (mkin [long_text] false ErrEOF) (fun _ => None) (fun _ => None)), (mkin [long_text] false ErrEOF), [x52; x52].
  split; [apply (names_stdin (mkworld (mkin [long_text] false ErrEOF) (fun _ => None) (fun _ => None)))|]. split; [repeat constructor; discriminate|].
  split; [reflexivity|]. split; [vm_compute; reflexivity|]. split; [reflexivity|]. vm_compute. reflexivity.
Qed.
Print Assumptions C56_long_line_refuted.
(** And when reading fails in the middle, between two lines, the command succeeds
    too. *)
Theorem C56_read_error_refuted : exists wd out, in_err (w_stdin wd) = ErrIO /\ csvtool rows wd [] = (out, Exit0).
Proof. exists (mkworld (mkin [json_lines] false ErrIO) (fun _ => None) (fun _ => None)), [x52; x52]. split; [reflexivity|]. vm_compute. reflexivity. Qed.
Print Assumptions C56_read_error_refuted.

(** ** C57 *)
(** The cells for the socket of a record: ports and interface in decimal, the
    addresses as in C49, the cookie in hexadecimal; read at the offsets of the
    kernel's structure. *)
Theorem C57_cells : forall raw m, parse_idm (Some raw) = Ret m -> sock_cells raw (sock_csv (idiag_id m)).
Proof. exact sock_csv_cells. Qed.
Print Assumptions C57_cells.

Lemma hexl_fun n l v w : IPTextFacts.hexl n l v -> IPTextFacts.hexl n l w -> v = w.
Proof. induction 1 as [|n b d l v H A IH]; intros B; inversion B; subst; [reflexivity|]. apply IH. congruence. Qed.
Lemma hexX_inj a b : hexX a = hexX b -> a = b.
Proof.
  intros E. destruct (hexX_numeral a) as (_ & A & _), (hexX_numeral b) as (_ & B & _). rewrite E in A.
  eapply hexl_fun; apply IPTextFacts.hex_value_hexl; [exact A|exact B].
Qed.
(** Two records have the same cells exactly if they have the same ports, interface
    and cookie, and addresses with the same text (C49_same_text says when). *)
Theorem C57_same_cells : forall raw raw' m m', parse_idm (Some raw) = Ret m -> parse_idm (Some raw') = Ret m' ->
  (sock_csv (idiag_id m) = sock_csv (idiag_id m') <->
   hdr_sport raw = hdr_sport raw' /\ hdr_dport raw = hdr_dport raw' /\ hdr_if raw = hdr_if raw' /\ hdr_cookie raw = hdr_cookie raw' /\
   (hdr_src raw = hdr_src raw' \/ exists a b c d, four_bytes (hdr_src raw) a b c d /\ four_bytes (hdr_src raw') a b c d) /\
   (hdr_dst raw = hdr_dst raw' \/ exists a b c d, four_bytes (hdr_dst raw) a b c d /\ four_bytes (hdr_dst raw') a b c d)).
Proof.
  intros raw raw' m m' H H'. destruct (P_Text.C49_same_text raw raw' m m' H H') as (TS & TD).
  apply parse_idm_ret in H, H'. destruct H as (b & E & _ & ->), H' as (b' & E' & _ & ->). injection E as <-. injection E' as <-.
  rewrite <- TS, <- TD. clear TS TD. split.
  - intros Q. unfold sock_csv in Q. injection Q as Q1 Q2 Q3 Q4 Q5 Q6.
    split; [exact (dec_inj _ _ Q1)|]. split; [exact (dec_inj _ _ Q2)|]. split; [exact (dec_inj _ _ Q5)|]. split; [exact (hexX_inj _ _ Q6)|]. split; [exact Q3|exact Q4].
  - intros (Q1 & Q2 & Q5 & Q6 & Q3 & Q4). unfold sock_csv.
    change (port_csv (b_sport (idiag_id (load_idm raw)))) with (dec (hdr_sport raw)). change (port_csv (b_sport (idiag_id (load_idm raw')))) with (dec (hdr_sport raw')).
    change (port_csv (b_dport (idiag_id (load_idm raw)))) with (dec (hdr_dport raw)). change (port_csv (b_dport (idiag_id (load_idm raw')))) with (dec (hdr_dport raw')).
    change (if_csv (b_if (idiag_id (load_idm raw)))) with (dec (hdr_if raw)). change (if_csv (b_if (idiag_id (load_idm raw')))) with (dec (hdr_if raw')).
    change (cookie_csv (b_cookie (idiag_id (load_idm raw)))) with (hexX (hdr_cookie raw)). change (cookie_csv (b_cookie (idiag_id (load_idm raw')))) with (hexX (hdr_cookie raw')).
    rewrite Q1, Q2, Q5, Q6. f_equal. f_equal. f_equal; [exact Q3|]. f_equal. exact Q4.
Qed.
Print Assumptions C57_same_cells.

(** They are the values of GetSockID. *)
Theorem C57_sockid : forall raw m, parse_idm (Some raw) = Ret m -> let s := get_sockid (idiag_id m) in
  exists sp dp nif ck, sock_csv (idiag_id m) = [sp; dp; sid_src s; sid_dst s; nif; ck] /\
    numeral sp (sid_sport s) /\ numeral dp (sid_dport s) /\ numeral nif (sid_if s) /\ hex_numeral ck (cookie_uint64 s).
Proof.
  intros raw m H s. unfold sock_csv. do 4 eexists. split; [reflexivity|]. split; [apply dec_numeral|]. split; [apply dec_numeral|]. split; [apply dec_numeral|].
  assert (E : cookie_uint64 s = le (b_cookie (idiag_id m))); [|rewrite E; apply hexX_numeral].
  apply parse_idm_ret in H. destruct H as (b & E & L & ->). injection E as <-. subst s. unfold cookie_uint64, get_sockid. cbn [sid_cookie]. apply to_of_int64.
  unfold cookie. change (b_cookie (idiag_id (load_idm raw))) with (at_ 44 8 raw).
  pose proof (le_lt (at_ 44 8 raw)) as B. unfold at_ in *. rewrite firstn_length, skipn_length in B. replace (Nat.min 8 (length raw - 44)) with 8 in B by lia. exact B.
Qed.
Print Assumptions C57_sockid.

Example c57_case : match parse_idm (Some (sample_hdr 2 1 9091 5000 (v4 192 168 14 134) (v4 10 0 0 1) 1000)) with
  | Ret m => sock_csv (idiag_id m) = map str ["9091"; "5000"; "192.168.14.134"; "10.0.0.1"; "0"; "3E8"]%string
  | _ => False end.
Proof. vm_compute. reflexivity. Qed.
