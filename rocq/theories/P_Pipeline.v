(** Property C52: from the kernel's messages, through the files of the running
    saver, to the snapshots of snapshot.LoadAll. *)
From Coq Require Import Strings.String.
From stdpp Require Import gmap.
From Coq Require Import NArith ZArith Lia.
From Verif Require Import GoBase GoTime Layout Inetdiag Netlink SpecNetlink RecordFacts SpecCompare Snapshot SpecSnapshot SpecJson Archive SpecArchive ArchiveFacts
  Cache Saver SpecSaver System SpecSystem SystemHidden SpecRecovered RecoveredFacts SmallFiles SpecPipeline PipelineFacts Samples P_Saver P_System P_Archive.
From Verif Require Reader SpecReader Zstd ZstdReader P_Zstd P_ZstdReader.
Local Open Scope list_scope.

(** Under the conditions of C39_small_messages (see there for a case that meets
    them): if every message names its congestion control, LoadAll of a file of a
    finished run succeeds; the first snapshot stands for the metadata, and the
    others show, in the order in which the saver queued them, the messages of the
    IPv4 and IPv6 records of the file. *)
Theorem C52_snapshots : forall w cf cap anon zone, (forall x, length (anon x) = length x) -> 1 <= nmarsh cf ->
  forall bs, all_comparable cf bs ->
  Forall (writable_time zone) (zero_time :: block_times bs) -> utf8 (uuid_prefix w) ->
  (Z.of_nat (length (log_of w cf bs)) <= 9223372036854775807)%Z ->
  Forall (messages_up_to 48000) bs -> (N.of_nat (length (uuid_prefix w)) <= 10000)%N ->
  forall y wr f i fuel, 1 <= cap -> Forall (parses cf) bs -> fair_order w ->
  reachable w cf cap anon (json_line zone) (header_line zone) bs y -> y_wg y = 0 -> y_files y !! wr = Some f ->
  SpecReader.solid i -> SpecReader.contents i = f_data f -> S (length (queued (file_actions wr (log_of w cf bs)))) < fuel ->
  (forall t m, received bs t m -> named_congestion m) ->
  exists md s0 ss, AHeader wr md ∈ log_of w cf bs /\
    load_all fuel (Reader.archive_next unmarshal) (Reader.new_scanner i) = Ret (Some md, s0 :: ss) /\
    sn_time s0 = 1243641599000000000%Z /\ sn_idm s0 = None /\ sn_tcp s0 = None /\ sn_observed s0 = 0%N /\
    Forall2 (fun q s => (exists t m, made_of cf bs q t m) /\ forall t m, made_of cf bs q t m -> shows anon t m s)
      (List.filter known_family (queued (file_actions wr (log_of w cf bs)))) ss.
Proof.
  intros w cf cap anon zone Hl Hn bs Hc Ht Hu Hb Hsm Hpre y wr f i fuel Hcap Hp Hf Hr Hw Ef Hs E Hfu Hcong.
  eapply (pipeline_ret w cf cap anon zone); try eassumption. intros q Hq _ Ha.
  destruct (file_lists w cf cap anon zone Hl Hn bs Hc Ht Hu Hb Hsm Hpre y wr f i Hcap Hp Hf Hr Hw Ef Hs E) as (Es & _).
  pose proof (queued_accepted w cf cap anon zone Hn bs y wr q Hr Es Hq) as Hacc.
  destruct (accepted_from cf bs q Hacc) as (t & m & ar & Rm & Em & ->).
  destruct (make_ret_some m (excl cf) ar Em) as (_ & _ & _ & l & mx & Hwa & _ & _ & _ & _ & _ & Hat).
  apply (Hcong t m Rm l Hwa). specialize (Hat 4%N [] ltac:(lia)). apply Hat. apply attr_nth in Ha. exact Ha.
Qed.
Print Assumptions C52_snapshots.

(** The same through the compressed file: the bytes of the file were written
    through zstd.NewWriter, which was closed and whose process succeeded; the
    reader has read zstd.NewReader up to the end. *)
Theorem C52_through_zstd : forall w cf cap anon zone, (forall x, length (anon x) = length x) -> 1 <= nmarsh cf ->
  forall bs, all_comparable cf bs ->
  Forall (writable_time zone) (zero_time :: block_times bs) -> utf8 (uuid_prefix w) ->
  (Z.of_nat (length (log_of w cf bs)) <= 9223372036854775807)%Z ->
  Forall (messages_up_to 48000) bs -> (N.of_nat (length (uuid_prefix w)) <= 10000)%N ->
  forall y wr f i fuel, 1 <= cap -> Forall (parses cf) bs -> fair_order w ->
  reachable w cf cap anon (json_line zone) (header_line zone) bs y -> y_wg y = 0 -> y_files y !! wr = Some f ->
  forall z s, Zstd.zreach z -> Zstd.SClose None ∈ Zstd.zlog z -> Zstd.p z = Zstd.Finished true -> P_Zstd.written (Zstd.zlog z) = f_data f ->
  ZstdReader.rreach (ZstdReader.mkzf (Zstd.file z) true) s -> ZstdReader.REof ∈ ZstdReader.rp_log s ->
  SpecReader.solid i -> SpecReader.contents i = P_ZstdReader.received (ZstdReader.rp_log s) ->
  S (length (queued (file_actions wr (log_of w cf bs)))) < fuel ->
  (forall t m, received bs t m -> named_congestion m) ->
  exists md s0 ss, AHeader wr md ∈ log_of w cf bs /\
    load_all fuel (Reader.archive_next unmarshal) (Reader.new_scanner i) = Ret (Some md, s0 :: ss) /\
    sn_time s0 = 1243641599000000000%Z /\ sn_idm s0 = None /\ sn_tcp s0 = None /\ sn_observed s0 = 0%N /\
    Forall2 (fun q s => (exists t m, made_of cf bs q t m) /\ forall t m, made_of cf bs q t m -> shows anon t m s)
      (List.filter known_family (queued (file_actions wr (log_of w cf bs)))) ss.
Proof.
  intros w cf cap anon zone Hl Hn bs Hc Ht Hu Hb Hsm Hpre y wr f i fuel Hcap Hp Hf Hr Hw Ef z s Z1 Z2 Z3 Z4 R1 R2 Hs E Hfu Hcong.
  assert (E' : SpecReader.contents i = f_data f) by (rewrite E, <- Z4; exact (P_ZstdReader.C50_round_trip z s Z1 Z2 Z3 R1 R2)).
  exact (C52_snapshots w cf cap anon zone Hl Hn bs Hc Ht Hu Hb Hsm Hpre y wr f i fuel Hcap Hp Hf Hr Hw Ef Hs E' Hfu Hcong).
Qed.
Print Assumptions C52_through_zstd.

(** Otherwise LoadAll crashes, exactly if a record of the file has an empty
    congestion attribute: one such message makes a whole file unreadable. *)
Theorem C52_crash_iff : forall w cf cap anon zone, (forall x, length (anon x) = length x) -> 1 <= nmarsh cf ->
  forall bs, all_comparable cf bs ->
  Forall (writable_time zone) (zero_time :: block_times bs) -> utf8 (uuid_prefix w) ->
  (Z.of_nat (length (log_of w cf bs)) <= 9223372036854775807)%Z ->
  Forall (messages_up_to 48000) bs -> (N.of_nat (length (uuid_prefix w)) <= 10000)%N ->
  forall y wr f i fuel, 1 <= cap -> Forall (parses cf) bs -> fair_order w ->
  reachable w cf cap anon (json_line zone) (header_line zone) bs y -> y_wg y = 0 -> y_files y !! wr = Some f ->
  SpecReader.solid i -> SpecReader.contents i = f_data f -> S (length (queued (file_actions wr (log_of w cf bs)))) < fuel ->
  (load_all fuel (Reader.archive_next unmarshal) (Reader.new_scanner i) = Panic <->
   exists q, q ∈ queued (file_actions wr (log_of w cf bs)) /\ known_family q = true /\ attr q 4 = Some []).
Proof.
  intros w cf cap anon zone Hl Hn bs Hc Ht Hu Hb Hsm Hpre y wr f i fuel Hcap Hp Hf Hr Hw Ef Hs E Hfu.
  exact (pipeline_panic w cf cap anon zone Hl Hn bs Hc Ht Hu Hb Hsm Hpre y wr f i fuel Hcap Hp Hf Hr Hw Ef Hs E Hfu).
Qed.
Print Assumptions C52_crash_iff.

(** The messages of the case of C39 carry no congestion attribute; what LoadAll
    gives for the first file. *)
Example c52_case : match y_files (run1 turns 400) !! 0 with
  | Some f => match load_all 10 (Reader.archive_next unmarshal) (Reader.new_scanner (Reader.mkin [f_data f] false ErrEOF)) with
              | Ret (Some md, s0 :: ss) => md_uuid md = str "host_5e0be100_0000000000000007"%string /\
                  map sn_time ss = [second; 3 * second]%Z /\ map sn_observed ss = [2; 2]%N /\
                  map (fun s => option_map (get_field "BytesReceived") (sn_tcp s)) ss = [Some (Some (VInt 20)); Some (Some (VInt 90))]
              | _ => False
              end
  | None => False
  end.
Proof. vm_compute. repeat split. Qed.

Example c52_named : forall t m, received bs0 t m -> named_congestion m.
Proof.
  intros t m (b & Hb & H).
  assert (K : exists k sent recv, m = conn_msg k sent recv /\ (sent < 256)%N /\ (recv < 256)%N).
  { destruct H as [[H _]|[H _]]; repeat (apply elem_of_cons in Hb as [->|Hb]); try (by apply elem_of_nil in Hb); cbn in H;
      repeat (apply elem_of_cons in H as [H|H]); try (by apply elem_of_nil in H); injection H as ->; eexists _, _, _; split; reflexivity || (split; reflexivity). }
  destruct K as (k & sent & recv & -> & _). intros l Hl. apply (NetlinkFacts.parse_route_attr_ret_iff _ []) in Hl. destruct Hl as (attrs & E & <-).
  unfold conn_msg, sample_msg in E. cbn [m_data vis] in E. rewrite skipn_app in E.
  assert (L : length (sample_hdr 2 1 443 5000 (v4 10 0 0 1) (v4 192 0 2 7) k) = 72) by reflexivity.
  rewrite skipn_all2 in E by (rewrite L; reflexivity). rewrite L in E. cbn [Nat.sub skipn app] in E.
  vm_compute in E. injection E as <-. intros K. inversion K as [|? ? ? K2]; subst. inversion K2.
Qed.

(** One message with an empty congestion attribute. *)
Definition odd_msg : nlmsg :=
  sample_msg (sample_hdr 2 1 443 5000 (v4 10 0 0 1) (v4 192 0 2 7) 7 ++ sample_attr 2 (sample_info 10 20) ++ sample_attr 4 []).
Definition odd : list block := [blk 1 [odd_msg]; blk 2 [conn_msg 7 30 40]].
Theorem C52_every_file_refuted : exists y f, reachable w0 cf0 1 anon0 (json_line utc) (header_line utc) odd y /\ y_wg y = 0 /\ y_files y !! 0 = Some f /\
  load_all 10 (Reader.archive_next unmarshal) (Reader.new_scanner (Reader.mkin [f_data f] false ErrEOF)) = Panic.
Proof.
  set (y := schedule w0 cf0 1 anon0 (json_line utc) (header_line utc) turns 400 (initial cf0 odd)).
  set (got := fun f => load_all 10 (Reader.archive_next unmarshal) (Reader.new_scanner (Reader.mkin [f_data f] false ErrEOF))).
  assert (A : option_map got (y_files y !! 0) = Some Panic) by (vm_compute; reflexivity).
  assert (B : y_wg y = 0) by (vm_compute; reflexivity).
  assert (R : reachable w0 cf0 1 anon0 (json_line utc) (header_line utc) odd y) by apply schedule_steps.
  clearbody y. destruct (y_files y !! 0) as [f|] eqn:E; [|discriminate A]. exists y, f. split; [exact R|]. split; [exact B|]. split; [exact E|].
  apply (f_equal (fun o => match o with Some x => x | None => Diverge end)) in A. exact A.
Qed.
Print Assumptions C52_every_file_refuted.
