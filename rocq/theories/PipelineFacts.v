(** From the kernel's messages through a file to snapshots. *)
From Coq Require Import Strings.String.
From stdpp Require Import gmap.
From Coq Require Import NArith ZArith Lia.
From Coq Require Import ZifyBool ZifyNat ZifyN.
From Verif Require Import GoBase GoBaseFacts GoTime Inetdiag Netlink SpecNetlink RecordFacts SpecCompare Snapshot SpecSnapshot SnapshotFacts
  SpecJson Archive SpecArchive ArchiveFacts LineFacts LineLength
  Cache Saver SpecSaver SpecSystem SaverFiles SaverTimes
  System SystemJobs SystemInv SystemFiles SystemRefine SystemEnd SystemHidden SpecRecovered RecoveredFacts SmallFiles SpecPipeline.
From Verif Require Reader SpecReader ReaderFacts.
Local Open Scope list_scope.

Lemma attr_read_back r k : attr (read_back r) k = attr r k.
Proof.
  unfold attr, read_back. cbn [ar_attrs]. rewrite nth_error_map. destruct (nth_error (ar_attrs r) k) as [[g|]|]; reflexivity.
Qed.
Lemma attr_timed r k : attr (timed r) k = attr r k.
Proof. unfold timed. destruct (_ =? _)%Z; reflexivity. Qed.
Lemma attr_nth r k v : attr r k = Some v <-> exists s, nth k (ar_attrs r) None = Some s /\ vis s = v.
Proof.
  unfold attr. split.
  - destruct (nth_error (ar_attrs r) k) as [[g|]|] eqn:E; try discriminate. intros H. injection H as <-.
    exists g. split; [|reflexivity]. apply nth_error_nth with (d := None) in E. exact E.
  - intros (s & E & <-). destruct (nth_error (ar_attrs r) k) as [o|] eqn:F.
    + apply nth_error_nth with (d := None) in F. rewrite E in F. rewrite <- F. reflexivity.
    + apply nth_error_None in F. rewrite nth_overflow in E by exact F. discriminate E.
Qed.

(** Where an accepted record comes from. *)
Lemma accepted_from cf bs r : r ∈ all_accepted cf bs -> exists t m ar, received bs t m /\
  make_archival_record m (excl cf) = Ret (Some ar) /\ r = mkar t (ar_raw ar) (ar_attrs ar) (ar_meta ar).
Proof.
  unfold all_accepted. intros H. apply elem_of_list_In, in_concat in H as (x & Hx & Hr).
  apply in_map_iff in Hx as (b & <- & Hb). apply elem_of_list_In in Hr, Hb.
  assert (G : forall t ms, r ∈ accepted_of (excl cf) t ms -> exists m ar, Some m ∈ ms /\
    make_archival_record m (excl cf) = Ret (Some ar) /\ r = mkar t (ar_raw ar) (ar_attrs ar) (ar_meta ar)).
  { intros t ms K. apply elem_of_list_omap in K as ([m|] & Hm & E); [|discriminate E].
    destruct (make_archival_record m (excl cf)) as [[ar|]| | |] eqn:R; try discriminate E. injection E as <-. exists m, ar. auto. }
  unfold accepted in Hr. apply elem_of_app in Hr as [Hr|Hr]; apply G in Hr as (m & ar & Hm & E & ->);
    [exists (V4Time b), m, ar | exists (V6Time b), m, ar]; (split; [|auto]); exists b; (split; [exact Hb|]); [left | right]; auto.
Qed.

Lemma shown anon t m cfx ar r mm s : make_archival_record m cfx = Ret (Some ar) -> 
  hidden anon (mkar t (ar_raw ar) (ar_attrs ar) (ar_meta ar)) = Some r -> decode (timed (read_back r)) = Ret (mm, s) -> shows anon t m s.
Proof.
  intros Hm Hh Hd. destruct (make_ret_some m cfx ar Hm) as (_ & Hl & _ & l & mx & Hw & _ & _ & _ & Hraw & Hln & Hat).
  unfold hidden, header in Hh. cbn [ar_raw ar_time ar_attrs ar_meta] in Hh. rewrite Hraw in Hh. unfold raw_of, data_of in Hh.
  destruct (hidden_header anon (firstn 72 (vis (m_data m)))) as [h|] eqn:Eh; [|discriminate Hh]. injection Hh as <-.
  set (r := mkar t (Some h) (ar_attrs ar) (ar_meta ar)) in *.
  exists h, l, (timed (read_back r)).
  assert (Ha : forall k v, k <= 38 -> (attr (timed (read_back r)) k = Some v <-> last_of (N.of_nat k) l v)).
  { intros k v Hk. rewrite attr_timed, attr_read_back, attr_nth. cbn [ar_attrs r].
    specialize (Hat (N.of_nat k) v ltac:(lia)). rewrite Nat2N.id in Hat. exact Hat. }
  assert (Hlen : length (ar_attrs (timed (read_back r))) <= 256).
  { unfold timed, read_back. destruct (_ =? _)%Z; cbn [ar_attrs]; rewrite map_length; cbn [ar_attrs r]; lia. }
  assert (Hi : forall i v, (i < 32)%N -> (attr (timed (read_back r)) (S (N.to_nat i)) = Some v <-> last_of (i + 1) l v)).
  { intros i v Hi. rewrite Ha by lia. replace (N.of_nat (S (N.to_nat i))) with (i + 1)%N by lia. reflexivity. }
  assert (Hne : h <> []).
  { intros ->. unfold hidden_header in Eh. destruct (length (firstn 72 (vis (m_data m))) <? 72); [discriminate Eh|].
    unfold data_of in Hl. 
    assert (at_ 0 8 (firstn 72 (vis (m_data m))) <> []).
    { unfold at_. destruct (vis (m_data m)) as [|x y]; [cbn in Hl; lia|]. discriminate. }
    destruct (hdr_family _ =? 10)%N; [|destruct (hdr_family _ =? 2)%N; [|discriminate Eh]];
      injection Eh as Eh; apply app_eq_nil in Eh as [Eh _]; contradiction. }
  split; [exact Eh|]. split; [exact Hw|]. split.
  { unfold timed. cbn [ar_time read_back r]. destruct (t =? _)%Z; reflexivity. }
  split.
  { unfold timed, read_back. cbn [ar_raw ar_time r]. destruct h; [contradiction|]. destruct (t =? _)%Z; reflexivity. }
  split; [exact Ha|]. split; [exact (proj2 (decode_spec _ _ _ Hd))|]. split.
  - intros i. rewrite (observed_bits _ _ _ i Hlen Hd). split; intros (H1 & v & H2); (split; [exact H1|]); exists v; apply Hi; assumption.
  - intros i. rewrite (notparsed_bits _ _ _ i Hlen Hd). split; intros (H1 & v & H2 & H3); (split; [exact H1|]); exists v; (split; [|exact H3]); apply Hi; assumption.
Qed.

Section Whole.
Variables (w : world) (cf : config) (cap : nat) (anon : bytes -> bytes) (zone : Z -> Z).
Hypothesis Hlen : forall x, length (anon x) = length x.
Hypothesis Hn : 1 <= nmarsh cf.
Variable bs : list block.
Hypothesis Hc : all_comparable cf bs.
Hypothesis Ht : Forall (writable_time zone) (zero_time :: block_times bs).
Hypothesis Hu : utf8 (uuid_prefix w).
Hypothesis Hb : (Z.of_nat (length (log_of w cf bs)) <= 9223372036854775807)%Z.
Hypothesis Hsmall : Forall (messages_up_to 48000) bs.
Hypothesis Hpre : (N.of_nat (length (uuid_prefix w)) <= 10000)%N.
Notation reachable := (reachable w cf cap anon (json_line zone) (header_line zone) bs).
Notation recs wr := (queued (file_actions wr (log_of w cf bs))).

Lemma queued_accepted y wr r : reachable y -> y_saver y = message_saver_loop w cf bs -> r ∈ recs wr -> r ∈ all_accepted cf bs.
Proof.
  intros Hr Es H. unfold queued in H. apply elem_of_list_omap in H as (a & Ha & Ea). destruct a as [ | | | | | | | |q1 [c|] wr1| | | | | | | | ]; try discriminate Ea.
  injection Ea as <-. unfold file_actions in Ha. apply elem_of_list_In, List.filter_In in Ha as [Ha _]. apply elem_of_list_In in Ha.
  eapply sent_accepted; [exact Hn|exact Hr|]. rewrite Es. eapply sent_in. exact Ha.
Qed.

Lemma file_lists y wr f i : 1 <= cap -> Forall (parses cf) bs -> fair_order w -> reachable y -> y_wg y = 0 -> y_files y !! wr = Some f ->
  SpecReader.solid i -> SpecReader.contents i = f_data f ->
  y_saver y = message_saver_loop w cf bs /\
  exists md, AHeader wr md ∈ log_of w cf bs /\
    yields (Reader.archive_next unmarshal) (Reader.new_scanner i) (recovered anon md (recs wr)) ErrEOF.
Proof.
  intros Hcap Hp Hf Hr Hw Ef Hs E. split.
  - assert (Fin : finished y) by (eapply wait_returns; eassumption).
    exact (proj1 (same_end w cf cap anon _ _ Hlen Hn bs Hc y Hr Fin)).
  - eapply (file_next w cf cap anon zone); try eassumption. eapply (lines_short w cf cap anon zone); eassumption.
Qed.

Lemma hidden_known q : length (header q) = 72 -> (known_family q = true <-> exists r, hidden anon q = Some r).
Proof.
  intros L. unfold known_family, hidden, hidden_header. rewrite L. cbn [Nat.ltb Nat.leb].
  destruct (hdr_family (header q) =? 2)%N eqn:E2, (hdr_family (header q) =? 10)%N eqn:E10; cbn [orb];
    (split; [intros K; try discriminate K; eexists; reflexivity | intros [r K]; try discriminate K; reflexivity]).
Qed.

Lemma hidden_acceptable q r : q ∈ all_accepted cf bs -> hidden anon q = Some r ->
  acceptable (timed (read_back r)) /\ ar_meta r = None /\ attr (timed (read_back r)) 4 = attr q 4.
Proof.
  intros Hq Hh. destruct (all_accepted_size cf bs Hsmall q Hq) as (L & _ & _ & M).
  destruct (hidden_shape anon q r Hlen Hh L) as (raw & Er & Lr & Ea & Em). split; [|split].
  - unfold acceptable, timed, read_back. rewrite Er. destruct raw as [|x raw]; [discriminate Lr|].
    destruct (_ =? _)%Z; cbn [ar_raw]; lia.
  - congruence.
  - rewrite attr_timed, attr_read_back. unfold attr. rewrite Ea. reflexivity.
Qed.

Lemma header_decodes md : exists s0, decode (timed (mkar zero_time None [] (Some md))) = Ret (Some md, s0)
  /\ sn_time s0 = 1243641599000000000%Z /\ sn_idm s0 = None /\ sn_tcp s0 = None /\ sn_observed s0 = 0%N.
Proof. eexists. split; [reflexivity|]. repeat split. Qed.

Lemma last_meta_recovered md rs : Forall (fun r => ar_meta r = None) rs ->
  last_meta (mkar zero_time None [] (Some md) :: map read_back rs) = Some md.
Proof.
  unfold last_meta. cbn [fold_left ar_meta]. generalize (Some md). induction rs as [|r rs IH]; intros o H; [reflexivity|].
  inversion H as [|? ? H1 H2]; subst. cbn [map fold_left read_back ar_meta]. rewrite H1. apply IH, H2.
Qed.

Lemma recovered_length md wr : length (recovered anon md (recs wr)) <= S (length (recs wr)).
Proof.
  unfold recovered. cbn [length]. rewrite map_length. apply le_n_S. generalize (recs wr). intros l. induction l as [|q l IH]; [reflexivity|].
  cbn [omap list_omap]. destruct (hidden anon q); cbn [length]; lia.
Qed.

Definition next := Reader.archive_next unmarshal.

Lemma pipeline_panic y wr f i fuel : 1 <= cap -> Forall (parses cf) bs -> fair_order w -> reachable y -> y_wg y = 0 -> y_files y !! wr = Some f ->
  SpecReader.solid i -> SpecReader.contents i = f_data f -> S (length (recs wr)) < fuel ->
  (load_all fuel next (Reader.new_scanner i) = Panic <-> exists q, q ∈ recs wr /\ known_family q = true /\ attr q 4 = Some []).
Proof.
  intros Hcap Hp Hf Hr Hw Ef Hs E Hfu. destruct (file_lists y wr f i Hcap Hp Hf Hr Hw Ef Hs E) as (Es & md & Hmd & Hy).
  pose proof (recovered_length md wr) as Hle.
  rewrite (load_all_panic next _ _ _ fuel Hy) by lia. split.
  - intros (rs1 & r & rs2 & Er & _ & D).
    assert (Hin : r ∈ recovered anon md (recs wr)) by (rewrite Er; apply elem_of_app; right; left).
    unfold recovered in Hin. apply elem_of_cons in Hin as [->|Hin].
    + destruct (header_decodes md) as (s0 & K & _). congruence.
    + apply elem_of_list_fmap in Hin as (r' & -> & Hin). apply elem_of_list_omap in Hin as (q & Hq & Hh).
      destruct (hidden_acceptable q r' (queued_accepted y wr q Hr Es Hq) Hh) as (_ & _ & A). apply decode_panic in D as [_ D].
      exists q. split; [exact Hq|]. split; [|congruence].
      apply hidden_known; [|exists r'; exact Hh]. apply (all_accepted_size cf bs Hsmall q (queued_accepted y wr q Hr Es Hq)).
  - intros (q0 & Hq0 & Hk0 & Ha0).
    (* the first such record *)
    assert (G : exists l1 q l2, recs wr = l1 ++ q :: l2 /\ known_family q = true /\ attr q 4 = Some [] /\
                  Forall (fun q => known_family q = true -> attr q 4 <> Some []) l1).
    { revert Hq0. generalize (recs wr). intros l. induction l as [|x l IH]; intros Hin; [inversion Hin|].
      destruct (known_family x) eqn:Kx; [destruct (attr x 4) as [[|v vs]|] eqn:Ax|].
      1: exists [], x, l; split; [reflexivity|]; split; [exact Kx|]; split; [exact Ax | constructor].
      all: (apply elem_of_cons in Hin as [->|Hin]; [congruence|]; destruct (IH Hin) as (l1 & q & l2 & -> & K1 & K2 & K3);
        exists (x :: l1), q, l2; split; [reflexivity|]; split; [exact K1|]; split; [exact K2|]; constructor; [congruence | exact K3]). }
    destruct G as (l1 & q & l2 & El & Hk & Ha & Hl1).
    assert (Hacc : forall x, x ∈ recs wr -> x ∈ all_accepted cf bs) by (intros x; apply (queued_accepted y wr x Hr Es)).
    assert (Hq : q ∈ all_accepted cf bs) by (apply Hacc; rewrite El; apply elem_of_app; right; left).
    destruct (proj1 (hidden_known q (proj1 (all_accepted_size cf bs Hsmall q Hq))) Hk) as (r & Hh).
    destruct (hidden_acceptable q r Hq Hh) as (A1 & A2 & A3).
    exists (mkar zero_time None [] (Some md) :: map read_back (omap (hidden anon) l1)), (read_back r), (map read_back (omap (hidden anon) l2)).
    split; [|split].
    + unfold recovered. rewrite El, omap_app. cbn [omap list_omap]. rewrite Hh, map_app. reflexivity.
    + constructor; [destruct (header_decodes md) as (s0 & K & _); eexists; exact K|].
      apply Forall_forall. intros x Hx. apply elem_of_list_fmap in Hx as (r' & -> & Hx). apply elem_of_list_omap in Hx as (q' & Hq' & Hh').
      assert (Hq2 : q' ∈ all_accepted cf bs) by (apply Hacc; rewrite El; apply elem_of_app; left; exact Hq').
      destruct (hidden_acceptable q' r' Hq2 Hh') as (B1 & B2 & B3). apply decode_ret. split; [exact B1|]. rewrite B3.
      rewrite Forall_forall in Hl1. apply Hl1; [exact Hq'|]. apply hidden_known; [apply (all_accepted_size cf bs Hsmall q' Hq2) | exists r'; exact Hh'].
    + apply decode_panic. split; [exact A1 | congruence].
Qed.

Lemma pipeline_ret y wr f i fuel : 1 <= cap -> Forall (parses cf) bs -> fair_order w -> reachable y -> y_wg y = 0 -> y_files y !! wr = Some f ->
  SpecReader.solid i -> SpecReader.contents i = f_data f -> S (length (recs wr)) < fuel ->
  (forall q, q ∈ recs wr -> known_family q = true -> attr q 4 <> Some []) ->
  exists md s0 ss, AHeader wr md ∈ log_of w cf bs /\
    load_all fuel next (Reader.new_scanner i) = Ret (Some md, s0 :: ss) /\
    sn_time s0 = 1243641599000000000%Z /\ sn_idm s0 = None /\ sn_tcp s0 = None /\ sn_observed s0 = 0%N /\
    Forall2 (fun q s => (exists t m, made_of cf bs q t m) /\ forall t m, made_of cf bs q t m -> shows anon t m s) (List.filter known_family (recs wr)) ss.
Proof.
  intros Hcap Hp Hf Hr Hw Ef Hs E Hfu Hne. destruct (file_lists y wr f i Hcap Hp Hf Hr Hw Ef Hs E) as (Es & md & Hmd & Hy).
  pose proof (recovered_length md wr) as Hle. destruct (header_decodes md) as (s0 & K0 & K1 & K2 & K3 & K4).
  assert (Hacc : Forall (fun x => x ∈ all_accepted cf bs /\ (known_family x = true -> attr x 4 <> Some [])) (recs wr)).
  { apply Forall_forall. intros x Hx. split; [exact (queued_accepted y wr x Hr Es Hx) | exact (Hne x Hx)]. }
  assert (G : forall l, Forall (fun x => x ∈ all_accepted cf bs /\ (known_family x = true -> attr x 4 <> Some [])) l ->
    Forall (fun r => ar_meta r = None) (omap (hidden anon) l) /\
    exists ss, Forall2 (fun r sn => decode (timed r) = Ret (ar_meta r, sn)) (map read_back (omap (hidden anon) l)) ss /\
               Forall2 (fun q s => (exists t m, made_of cf bs q t m) /\ forall t m, made_of cf bs q t m -> shows anon t m s) (List.filter known_family l) ss).
  { intros l H. induction l as [|q l IH]; [split; [constructor | exists []; split; constructor]|].
    inversion H as [|? ? (Hq & Hc4) Hl]; subst. destruct (IH Hl) as (I1 & ss & I2 & I3). cbn [omap list_omap List.filter].
    pose proof (hidden_known q (proj1 (all_accepted_size cf bs Hsmall q Hq))) as HK.
    destruct (hidden anon q) as [r|] eqn:Hh.
    - assert (Kq : known_family q = true) by (apply HK; exists r; reflexivity). rewrite Kq.
      destruct (hidden_acceptable q r Hq Hh) as (B1 & B2 & B3).
      destruct (proj2 (decode_ret (timed (read_back r)))) as ((mm & s) & D); [split; [exact B1 | rewrite B3; apply Hc4, Kq]|].
      assert (Emm : mm = ar_meta (read_back r)).
      { pose proof (proj1 (decode_spec _ _ _ D)) as X. rewrite X. unfold timed. destruct (_ =? _)%Z; reflexivity. }
      split; [constructor; [exact B2 | exact I1]|]. exists (s :: ss). split.
      + cbn [map]. constructor; [rewrite <- Emm; exact D | exact I2].
      + constructor; [|exact I3]. split.
        * destruct (accepted_from cf bs q Hq) as (t & m & ar & Rm & Em & Eq). exists t, m. split; [exact Rm|]. exists ar. split; assumption.
        * intros t m (_ & ar & Em & Eq). rewrite Eq in Hh. exact (shown anon t m (excl cf) ar r mm s Em Hh D).
    - assert (Kq : known_family q = false) by (destruct (known_family q); [destruct (proj1 HK eq_refl) as (r & X); discriminate X | reflexivity]).
      rewrite Kq. split; [exact I1|]. exists ss. split; assumption. }
  destruct (G _ Hacc) as (G1 & ss & G2 & G3). exists md, s0, ss. split; [exact Hmd|].
  split; [|split; [exact K1|]; split; [exact K2|]; split; [exact K3|]; split; [exact K4 | exact G3]].
  apply (load_all_ret next _ _ _ fuel _ _ Hy); [lia|]. split; [reflexivity|]. split.
  - symmetry. apply last_meta_recovered. exact G1.
  - constructor; [exact K0 | exact G2].
Qed.
End Whole.
