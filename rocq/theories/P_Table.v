(** Property C74: the table that csvtool prints. *)
From Coq Require Import Strings.String.
From stdpp Require Import gmap relations.
From Coq Require Import NArith ZArith Lia.
From Verif Require Import Zstd ZstdReader P_ZstdReader GoBase GoBaseFacts GoTime Layout NetIP Inetdiag Netlink SpecNetlink RecordFacts SpecConfig SpecAddrText AddrTextFacts SpecCompare
  Reader SpecReader ReaderFacts Snapshot SpecSnapshot SnapshotFacts SpecJson SpecDecode Rfc3339 Archive SpecArchive ArchiveFacts
  Cache Saver SpecSaver System SpecSystem SystemHidden SpecRecovered RecoveredFacts SmallFiles SpecPipeline PipelineFacts Samples P_Saver P_System P_Archive P_Pipeline
  CsvTool SpecCsv CsvFacts P_Csv CsvTable SpecTable TableFacts.
From Verif Require Import Reader SpecReader.
Local Open Scope list_scope.
Local Instance byte_dec : EqDecision byte := Byte.byte_eq_dec.

(** If toCSV succeeds, what it writes is a table in the sense of RFC 4180: a header
    and one row for every snapshot, in order, whose cells show the snapshot column
    by column. *)
Theorem C74_table : forall zone blanks ss out, Forall well_formed ss -> to_csv zone blanks ss = (out, true) ->
  exists rows, table_text (actual_header :: rows) out /\ Forall2 shown_in ss rows.
Proof. exact table_ok. Qed.
Print Assumptions C74_table.

(** A text has one reading as a table, whatever strings are in the cells. *)
Theorem C74_one_reading : forall t rows rows', table_text rows t -> table_text rows' t -> rows = rows'.
Proof. intros t rows rows' H H'. exact (one_reading rows t H rows' H'). Qed.
Print Assumptions C74_one_reading.

(** toCSV succeeds exactly if every time has a year of four digits. *)
Theorem C74_written : forall zone blanks ss, Forall well_formed ss ->
  ((exists out, to_csv zone blanks ss = (out, true)) <-> Forall (fun s => writable_time zone (sn_time s)) ss).
Proof. exact table_written. Qed.
Print Assumptions C74_written.

(** The table tells everything that is in the snapshots, but for bytes of addresses
    that have the same text. *)
Theorem C74_lossless : forall zone zone' blanks blanks' ss ss' out, Forall well_formed ss -> Forall well_formed ss' ->
  to_csv zone blanks ss = (out, true) -> to_csv zone' blanks' ss' = (out, true) -> Forall2 same_contents ss ss'.
Proof.
  intros zone zone' bl bl' ss ss' out W W' H H'. destruct (table_ok zone bl ss out W H) as (rows & T & F). destruct (table_ok zone' bl' ss' out W' H') as (rows' & T' & F').
  pose proof (one_reading _ _ T _ T') as E. injection E as <-. exact (same_rows ss ss' rows W W' F F').
Qed.
Print Assumptions C74_lossless.

(** The cells of the kernel's structures, read in the record's attributes: blank if
    the record does not have the attribute, else the number at the field's offset. *)
Theorem C74_kernel_cells : forall ar m s l, decode ar = Ret (m, s) -> shown_in s l ->
  forall pre k tb f, In (pre, k, tb) kernel_structures -> In f tb ->
  exists i c, nth_error actual_header i = Some (str (actual_name (pre ++ fst (fst (fst f))))) /\ nth_error l i = Some c /\
    match attr ar k with None => c = [] | Some raw => integer_text c (held raw f) end.
Proof. intros ar m s l D S pre k tb f Hp Hf. destruct (decode_spec ar m s D) as (_ & Dd). exact (kernel_cell ar s l pre k tb f Dd S Hp Hf). Qed.
Print Assumptions C74_kernel_cells.

Lemma formed_all rs ss : Forall2 (fun r sn => decode (timed r) = Ret (ar_meta r, sn)) rs ss -> Forall well_formed ss.
Proof. induction 1 as [|r s rs ss H F IH]; constructor; [|exact IH]. destruct (decode_spec _ _ _ H) as (_ & D). exact (decoded_formed _ _ D). Qed.
Lemma says_formed t ss : says t ss -> Forall well_formed ss.
Proof. unfold says. induction 1 as [|l s ls ss H F IH]; constructor; [|exact IH]. destruct H as (r & _ & H). destruct (decode_spec _ _ _ H) as (_ & D). exact (decoded_formed _ _ D). Qed.
(** The command: when it ends well, its standard output is the table of the
    snapshots of all lines (lines below 64 KiB, as in C56). *)
Theorem C74_csvtool : forall zone blanks wd args i out, names wd args i -> SpecReader.solid i -> Forall SpecReader.short (SpecReader.lines (SpecReader.contents i)) ->
  csvtool (to_csv zone blanks) wd args = (out, Exit0) ->
  exists ss rows, says (SpecReader.contents i) ss /\ table_text (actual_header :: rows) out /\ Forall2 shown_in ss rows.
Proof.
  intros zone bl wd args i out N S0 Sh E. apply (proj1 (C56_output (to_csv zone bl) wd args i out N S0 Sh)) in E as (ss & Y & E).
  destruct (table_ok zone bl ss out (says_formed _ _ Y) E) as (rows & T & F). exists ss, rows. split; [exact Y|split; [exact T|exact F]].
Qed.
Print Assumptions C74_csvtool.

(** The files of a finished run of the saver (conditions of C52_snapshots) become a
    table with the header, a row for the metadata, and a row for every IPv4 or IPv6
    record of the file, in order, which shows the kernel's message.  (The local time
    of csvtool need not be that of the saver.) *)
Theorem C74_saver_files : forall blanks zone' w cf cap anon zone, (forall x, length (anon x) = length x) -> 1 <= nmarsh cf ->
  forall bs, all_comparable cf bs ->
  Forall (writable_time zone) (zero_time :: block_times bs) -> Forall (writable_time zone') (1243641599000000000%Z :: block_times bs) -> utf8 (uuid_prefix w) ->
  (Z.of_nat (length (log_of w cf bs)) <= 9223372036854775807)%Z ->
  Forall (messages_up_to 48000) bs -> (N.of_nat (length (uuid_prefix w)) <= 10000)%N ->
  forall y wr f i wd args, 1 <= cap -> Forall (parses cf) bs -> fair_order w ->
  System.reachable w cf cap anon (json_line zone) (header_line zone) bs y -> y_wg y = 0 -> y_files y !! wr = Some f ->
  names wd args i -> SpecReader.solid i -> SpecReader.contents i = f_data f ->
  (forall t m, SpecPipeline.received bs t m -> named_congestion m) ->
  exists out row0 rows, csvtool (to_csv zone' blanks) wd args = (out, Exit0) /\ table_text (actual_header :: row0 :: rows) out /\
    (exists s0, shown_in s0 row0 /\ sn_time s0 = 1243641599000000000%Z /\ sn_idm s0 = None /\ sn_tcp s0 = None /\ sn_observed s0 = 0%N) /\
    Forall2 (fun q row => exists s, shown_in s row /\ (exists t m, made_of cf bs q t m) /\ forall t m, made_of cf bs q t m -> shows anon t m s)
      (List.filter known_family (queued (file_actions wr (log_of w cf bs)))) rows.
Proof.
  intros bl zone' w cf cap anon zone Hl Hn bs Hc Ht' Ht Hu Hb Hsm Hpre y wr f i wd args Hcap Hp Hf Hr Hw Ef Ni Hs E Hcong.
  destruct (loaded i Hs) as (rs & e & Er & Y & L).
  set (fuel := S (S (length (queued (file_actions wr (log_of w cf bs))) + length rs))).
  destruct (C52_snapshots w cf cap anon zone Hl Hn bs Hc Ht' Hu Hb Hsm Hpre y wr f i fuel Hcap Hp Hf Hr Hw Ef Hs E ltac:(unfold fuel; lia) Hcong)
    as (md & s0 & ss & _ & Q & T0 & A & B & C & F).
  assert (L2 : length rs < fuel) by (unfold fuel; lia).
  pose proof (proj1 (load_all_ret _ _ _ _ _ _ _ Y L2) Q) as R. destruct R as (_ & _ & Dec). pose proof (formed_all _ _ Dec) as W.
  apply (load_all_ret _ _ _ _ _ _ _ Y L2) in Q. apply (load_all_ret _ _ _ _ _ _ _ Y L) in Q.
  assert (Wt : Forall (fun s => writable_time zone' (sn_time s)) (s0 :: ss)).
  { inversion Ht as [|? ? Hh Hbt]; subst. constructor; [rewrite T0; exact Hh|].
    apply Forall_forall. intros s Hs'. apply elem_of_list_lookup in Hs' as (j & Hj). destruct (Forall2_lookup_r _ _ _ _ _ F Hj) as (q & _ & (t & m & Hm) & Sh).
    destruct (Sh t m Hm) as (h & l & r & _ & _ & Er' & _ & _ & D & _). destruct D as (Et & _). rewrite Et, Er'.
    destruct (Z.eqb t (-62135596800000000000)); [exact Hh|].
    destruct Hm as ((b & Hb' & HH) & _). rewrite Forall_forall in Hbt. apply Hbt. unfold block_times. apply elem_of_list_In, in_concat. exists [V4Time b; V6Time b].
    split; [apply in_map_iff; exists b; split; [reflexivity|apply elem_of_list_In; exact Hb']|]. destruct HH as [[_ ->]|[_ ->]]; [left; reflexivity|right; left; reflexivity]. }
  destruct (proj2 (table_written zone' bl (s0 :: ss) W) Wt) as (out & O). destruct (table_ok zone' bl (s0 :: ss) out W O) as (rows & T & FR).
  inversion FR as [|? row0 ? rows' R0 RR]; subst. exists out, row0, rows'. split; [|split; [exact T|split; [exists s0; auto|]]].
  - rewrite (names_convert (to_csv zone' bl) wd args i Ni). unfold convert. rewrite Q, O. reflexivity.
  - clear - F RR. revert rows' RR. induction F as [|q s qs ss H F IH]; intros rows RR; inversion RR; subst; [constructor|]. constructor; [|apply IH; assumption].
    exists s. split; [assumption|exact H].
Qed.
Print Assumptions C74_saver_files.

(** ** The names of the columns *)
(** Each of the other columns is called as one expects, and no two of them alike. *)
Theorem C74_names : forall i n, nth_error expected_header i = Some n -> n <> str "TCP.LastAckRecv" -> n <> str "SKMemInfo.Sndbuf" ->
  nth_error actual_header i = Some n /\ (n <> str "TCP.LastDataRecv" -> forall j, nth_error actual_header j = Some n -> j = i).
Proof.
  assert (K : forall i n, nth_error expected_header i = Some n -> (n = str "TCP.LastAckRecv" \/ n = str "SKMemInfo.Sndbuf" \/ nth_error actual_header i = Some n)).
  { assert (A : List.Forall (fun x => fst x = str "TCP.LastAckRecv" \/ fst x = str "SKMemInfo.Sndbuf" \/ snd x = fst x) (List.combine expected_header actual_header)).
    { apply (List.Forall_forall). intros x Hx. apply List.forallb_forall with (f := fun x => bytes_eqb (fst x) (str "TCP.LastAckRecv") || bytes_eqb (fst x) (str "SKMemInfo.Sndbuf") || bytes_eqb (snd x) (fst x)) in Hx; [|vm_compute; reflexivity].
      apply orb_prop in Hx as [Hx|Hx]; [apply orb_prop in Hx as [Hx|Hx]|]; apply bytes_eqb_eq in Hx; auto. }
    intros i n Hi. destruct (nth_error actual_header i) as [m|] eqn:Hj.
    - assert (C : forall (l k : list bytes) i, nth_error l i = Some n -> nth_error k i = Some m -> In (n, m) (List.combine l k)).
      { clear. induction l as [|a l IH]; intros k i H1 H2; destruct i; try discriminate H1; destruct k; try discriminate H2; cbn [nth_error] in *; [injection H1 as ->; injection H2 as ->; left; reflexivity|right; eapply IH; eassumption]. }
      rewrite List.Forall_forall in A. destruct (A _ (C _ _ _ Hi Hj)) as [X|[X|X]]; cbn [fst snd] in X; subst; auto.
    - exfalso. apply nth_error_None in Hj. assert (i < length expected_header) by (apply nth_error_Some; rewrite Hi; discriminate). assert (length expected_header = length actual_header) by (vm_compute; reflexivity). lia. }
  intros i n Hi N1 N2. destruct (K i n Hi) as [X|[X|X]]; [contradiction|contradiction|]. split; [exact X|]. intros N3 j Hj.
  assert (D : forall a b, nth_error actual_header a = Some n -> nth_error actual_header b = Some n -> a = b).
  { assert (U : List.NoDup (List.filter (fun x => negb (bytes_eqb x (str "TCP.LastDataRecv"))) actual_header)) by (apply NoDup_ListNoDup, (bool_decide_unpack _); vm_compute; exact I).
    assert (G : forall l : list bytes, List.NoDup (List.filter (fun x => negb (bytes_eqb x (str "TCP.LastDataRecv"))) l) -> forall a b, nth_error l a = Some n -> nth_error l b = Some n -> a = b).
    { assert (Q : negb (bytes_eqb n (str "TCP.LastDataRecv")) = true) by (destruct (bytes_eqb n (str "TCP.LastDataRecv")) eqn:Z; [apply bytes_eqb_eq in Z; contradiction|reflexivity]).
      clear - Q. induction l as [|x l IH]; intros U a b Ha Hb; [destruct a; discriminate Ha|]. cbn [List.filter] in U.
      assert (V : List.NoDup (List.filter (fun x => negb (bytes_eqb x (str "TCP.LastDataRecv"))) l)) by (destruct (negb (bytes_eqb x _)); [inversion U; assumption|exact U]).
      destruct a as [|a], b as [|b]; cbn [nth_error] in Ha, Hb.
      - reflexivity.
      - injection Ha as ->. rewrite Q in U. inversion U as [|? ? NI _]; subst. exfalso. apply NI. apply filter_In. split; [apply nth_error_In in Hb; exact Hb|exact Q].
      - injection Hb as ->. rewrite Q in U. inversion U as [|? ? NI _]; subst. exfalso. apply NI. apply filter_In. split; [apply nth_error_In in Ha; exact Ha|exact Q].
      - f_equal. exact (IH V a b Ha Hb). }
    exact (G actual_header U). }
  exact (D j i Hj X).
Qed.
Print Assumptions C74_names.

(** Not every column is called as one expects: the time since the last
    acknowledgement is in a second column "TCP.LastDataRecv", and the size of the
    send buffer in "SKMemInfo.Sndbug". *)
Theorem C74_names_refuted : expected_header <> actual_header /\
  (exists i j, i <> j /\ nth_error actual_header i = Some (str "TCP.LastDataRecv") /\ nth_error actual_header j = Some (str "TCP.LastDataRecv") /\
     nth_error expected_header i = Some (str "TCP.LastDataRecv") /\ nth_error expected_header j = Some (str "TCP.LastAckRecv")) /\
  (exists i, nth_error actual_header i = Some (str "SKMemInfo.Sndbug") /\ nth_error expected_header i = Some (str "SKMemInfo.Sndbuf")) /\
  ~ In (str "TCP.LastAckRecv") actual_header /\ ~ In (str "SKMemInfo.Sndbuf") actual_header.
Proof.
  assert (N : forall n, existsb (bytes_eqb n) actual_header = false -> ~ In n actual_header).
  { intros n H I. assert (E : existsb (bytes_eqb n) actual_header = true) by (apply existsb_exists; exists n; split; [exact I|apply bytes_eqb_eq; reflexivity]). congruence. }
  split; [intros E; apply (f_equal (fun l => existsb (bytes_eqb (str "TCP.LastAckRecv")) l)) in E; vm_compute in E; discriminate E|].
  split; [exists 44, 45; repeat split; try (vm_compute; reflexivity); discriminate|].
  split; [exists 86; split; vm_compute; reflexivity|]. split; apply N; vm_compute; reflexivity.
Qed.
Print Assumptions C74_names_refuted.

(** Samples.  The positions and cells that cmd/csvtool/main_test.go:62-103 checks: *)
Example c74_header : nth_error actual_header 3 = Some (str "IDM.Family") /\ nth_error actual_header 7 = Some (str "IDM.SockID.SPort") /\
  nth_error actual_header 12 = Some (str "IDM.SockID.Cookie") /\ length actual_header = 105.
Proof. vm_compute. repeat split. Qed.
(** A record with tcp_info of 60 bytes, and a congestion algorithm with a comma, a
    quotation mark and an end of line in its name *)
Definition gs (b : bytes) : option gslice := Some (mkslice b []).
Definition record74 : archival :=
  mkar 1553815964000000000 (Some (sample_hdr 2 1 9091 5000 (v4 192 168 14 134) (v4 192 0 2 7) 1000))
    [None; None; gs (repeat x00 52 ++ [x01; x00; x00; x00; xff; x00; x00; x00]); None; gs (str "a,""b" ++ [x0a; x00])] None.
Definition snap74 : snapshot := match decode record74 with Ret (_, s) => s | _ => new_snapshot 0 end.
Definition row74 : list bytes := match row (fun _ => 0%Z) true snap74 with Some l => l | None => [] end.
Example c74_cells : decode record74 = Ret (None, snap74) /\ row (fun _ => 0%Z) true snap74 = Some row74 /\
  nth_error row74 0 = Some (str "2019-03-28T23:32:44Z") /\ nth_error row74 7 = Some (str "9091") /\ nth_error row74 9 = Some (str "192.168.14.134") /\ nth_error row74 12 = Some (str "3E8") /\
  nth_error row74 18 = Some (str "a,""b" ++ [x0a]) /\ nth_error row74 19 = Some [] /\ nth_error row74 44 = Some (str "1") /\ nth_error row74 45 = Some (str "255") /\
  nth_error row74 86 = Some [] /\ length row74 = 105.
Proof. vm_compute. repeat split. Qed.
Example c74_formed : well_formed snap74 /\ shown_in snap74 row74.
Proof.
  assert (W : well_formed snap74) by (destruct (decode_spec _ _ _ (proj1 c74_cells)) as (_ & D); exact (decoded_formed _ _ D)). split; [exact W|].
  assert (T : writable_time (fun _ => 0%Z) (sn_time snap74)) by (replace (sn_time snap74) with 1553815964000000000%Z by (vm_compute; reflexivity); unfold writable_time; lia).
  destruct (row_shown (fun _ => 0%Z) true snap74 W T) as (l & R & S).
  rewrite (proj1 (proj2 c74_cells)) in R. apply (inj Some) in R. rewrite R. exact S.
Qed.
(** With tags omitempty that are ignored, the zero is written. *)
Example c74_zero : match row (fun _ => 0%Z) false snap74 with Some l => nth_error l 19 = Some (str "0") | None => False end.
Proof. vm_compute. reflexivity. Qed.
(** The command on the two lines of P_Csv.v prints three lines; the first two: *)
Example c74_case : match csvtool (to_csv (fun _ => 0%Z) true) wd0 [] with
  | (out, Exit0) => length (List.filter (Byte.eqb x0a) out) = 3 /\ firstn 44 out = str "Timestamp,Observed,NotFullyParsed,IDM.Family" /\
      firstn 43 (skipn (length (write_record header_row)) out) = str "2009-05-29T23:59:59Z,0" ++ repeat x2c 21
  | _ => False end.
Proof. vm_compute. repeat split. Qed.
(** A case for C74_saver_files: that of C52 (P_Pipeline.v), whose times and the time
    given to the metadata can be written. *)
Example c74_times : forall zone, zone = (fun _ => 0%Z) \/ zone = (fun _ => 300%Z) -> Forall (writable_time zone) (zero_time :: 1243641599000000000%Z :: block_times bs0).
Proof.
  intros zone Hz. apply (Forall_impl (fun t => (-62167219200 * 1000000000 <= t < 253402200000 * 1000000000)%Z)); [apply (bool_decide_unpack _); vm_compute; exact I|].
  intros t H. unfold writable_time. destruct Hz as [->| ->]; lia.
Qed.
