(** When all messages are small, no line of a file is too long for the reader. *)
From Coq Require Import Strings.String.
From stdpp Require Import gmap.
From Coq Require Import NArith ZArith Lia.
From Coq Require Import ZifyBool ZifyNat ZifyN.
From Verif Require Import GoBase GoBaseFacts GoTime Inetdiag Netlink SpecNetlink SpecCompare
  SpecJson Archive SpecArchive ArchiveFacts LineFacts LineLength
  Cache Saver SpecSaver SpecSystem SaverFiles SaverTimes
  System SystemJobs SystemInv SystemFiles SystemRefine SystemEnd SystemHidden SpecRecovered RecoveredFacts.
From Verif Require Reader SpecReader ReaderFacts.
Local Open Scope list_scope.

(** The beginning of a text with short lines has short lines. *)
Lemma short_prefix d rest : Forall SpecReader.short (SpecReader.lines (d ++ rest)) -> Forall SpecReader.short (SpecReader.lines d).
Proof.
  unfold SpecReader.lines. generalize (@nil byte) as cur. induction d as [|x d IH]; intros cur H.
  - cbn [app SpecReader.lines_from] in *. destruct cur as [|c cur]; [constructor|]. constructor; [|constructor].
    cut (exists l t, SpecReader.lines_from (c :: cur) rest = l :: t /\ length (c :: cur) <= length (fst l)).
    { intros (l & t & E & L). rewrite E in H. inversion H as [|? ? H1 _]; subst. unfold SpecReader.short in *. cbn [fst] in *. lia. }
    clear H. revert c cur. induction rest as [|x rest IH]; intros c cur.
    + exists (c :: cur, false), []. split; [done|]. cbn [fst]. lia.
    + cbn [SpecReader.lines_from]. destruct (Byte.eqb x x0a); [eexists _, _; split; [done|cbn [fst]; lia]|].
      destruct (IH c (cur ++ [x])) as (l & t & E & L). exists l, t. split; [exact E|]. cbn [length] in *. rewrite app_length in L. lia.
  - cbn [app SpecReader.lines_from] in *. destruct (Byte.eqb x x0a); [|by apply IH].
    inversion H as [|? ? H1 H2]; subst. constructor; [exact H1|by apply IH].
Qed.

Lemma hidden_shape anon r0 r : (forall x, length (anon x) = length x) -> hidden anon r0 = Some r ->
  length (header r0) = 72 -> exists raw, ar_raw r = Some raw /\ length raw = 72 /\ ar_attrs r = ar_attrs r0 /\ ar_meta r = ar_meta r0.
Proof.
  intros Hl. unfold hidden, hidden_header. set (h := header r0). intros E L.
  destruct (length h <? 72); [discriminate E|].
  destruct (hdr_family h =? 10)%N; [|destruct (hdr_family h =? 2)%N; [|discriminate E]];
    injection E as E; rewrite <- E; cbn [ar_raw ar_attrs ar_meta]; (eexists; split; [reflexivity|]; split; [|done]);
    unfold at_; repeat (rewrite ?app_length, ?Hl, ?take_length, ?drop_length); lia.
Qed.

Lemma accepted_size ex t msgs r n :
  Forall (fun m => forall msg, m = Some msg -> (N.of_nat (length (vis (m_data msg))) <= n)%N) msgs ->
  r ∈ accepted_of ex t msgs ->
  length (header r) = 72 /\ length (ar_attrs r) <= 39 /\ (N.of_nat (72 + total (ar_attrs r)) <= n)%N /\ ar_meta r = None.
Proof.
  intros F H. apply elem_of_list_omap in H as (m & Hm & E). destruct m as [m|]; [|discriminate E].
  destruct (make_archival_record m ex) as [[ar|]| | |] eqn:R; try discriminate E. injection E as <-.
  destruct (record_size m ex ar R) as (raw & Er & L & A & T & M). rewrite Forall_forall in F. specialize (F _ Hm m eq_refl).
  unfold header. cbn [ar_raw ar_attrs ar_meta]. rewrite Er. split; [exact L|]. split; [exact A|]. split; [lia|exact M].
Qed.

Section Small.
Variables (w : world) (cf : config) (cap : nat) (anon : bytes -> bytes) (zone : Z -> Z).
Hypothesis Hlen : forall x, length (anon x) = length x.
Hypothesis Hn : 1 <= nmarsh cf.
Variable bs : list block.
Hypothesis Hc : all_comparable cf bs.
Hypothesis Ht : Forall (writable_time zone) (zero_time :: block_times bs).
Hypothesis Hu : utf8 (uuid_prefix w).
Hypothesis Hb : (Z.of_nat (length (log_of w cf bs)) <= 9223372036854775807)%Z.
Hypothesis Hsmall : Forall (messages_up_to 48000) bs.
Hypothesis Hpre : (N.of_nat (length (uuid_prefix w)) <= 10000)%N.
Notation reachable := (reachable w cf cap anon (json_line zone) (header_line zone) bs).

Lemma all_accepted_size r : r ∈ all_accepted cf bs ->
  length (header r) = 72 /\ length (ar_attrs r) <= 39 /\ (N.of_nat (72 + total (ar_attrs r)) <= 48000)%N /\ ar_meta r = None.
Proof.
  unfold all_accepted. intros H. apply elem_of_list_In, in_concat in H as (x & Hx & Hr).
  apply in_map_iff in Hx as (b & <- & Hbb). apply elem_of_list_In in Hr, Hbb. rewrite Forall_forall in Hsmall.
  specialize (Hsmall b Hbb). unfold messages_up_to in Hsmall. apply Forall_app in Hsmall as [S4 S6].
  unfold accepted in Hr. apply elem_of_app in Hr as [Hr|Hr]; [eapply accepted_size; [exact S4|exact Hr]|eapply accepted_size; [exact S6|exact Hr]].
Qed.

Lemma complete_short y wr : reachable y -> y_saver y = message_saver_loop w cf bs -> file_actions wr (log_of w cf bs) <> [] ->
  Forall SpecReader.short (SpecReader.lines (contents anon (json_line zone) (header_line zone) wr (log_of w cf bs))).
Proof.
  intros Hr Es Ne. destruct (full_contents w cf cap anon zone Hlen Hn bs Ht Hu Hb y wr Hr Es Ne) as (md & Hmd & Hcon & Hgood).
  assert (Hid : exists k, md_uuid md = from_cookie (uuid_prefix w) k).
  { destruct (all_invariants w cf cap anon _ _ Hlen Hn bs y Hr) as (I1 & _).
    pose proof (file_histories w cf (y_saver y) wr (proj1 I1)) as FH. rewrite Es in FH. change (s_log (message_saver_loop w cf bs)) with (log_of w cf bs) in FH.
    destruct FH as [F|(cl & q0 & k & md' & recs & path' & F & Hk & Hid & _)]; [contradiction|].
    assert (A : AHeader wr md ∈ file_actions wr (log_of w cf bs)).
    { unfold file_actions. apply elem_of_list_In, List.filter_In. split; [by apply elem_of_list_In|]. cbn. by rewrite Nat.eqb_refl. }
    rewrite F in A. exists k. rewrite <- Hid. unfold written in A.
    repeat match goal with
    | H : _ ∈ _ :: _ |- _ => apply elem_of_cons in H as [H|H]
    | H : _ ∈ _ ++ _ |- _ => apply elem_of_app in H as [H|H]
    end; try discriminate A; try (by apply elem_of_nil in A).
    - injection A as ->. reflexivity.
    - apply elem_of_list_In, in_map_iff in A as (c & A & _). discriminate A.
    - destruct cl; [|by apply elem_of_nil in A]. apply elem_of_list_singleton in A. discriminate A. }
  rewrite Hcon. set (rs := omap _ _) in *.
  assert (Q : Forall (fun r => ~ In x0a (json_line zone r)) (mkar zero_time None [] (Some md) :: rs)).
  { eapply Forall_impl; [exact Hgood|]. intros r [Gw Gm]. destruct (round_trip zone r Gw Gm) as (b & M & _ & N1 & _).
    unfold json_line. by rewrite M. }
  replace (map (as_line zone) (mkar zero_time None [] (Some md) :: rs))
    with (map (fun l => l ++ [x0a]) (map (json_line zone) (mkar zero_time None [] (Some md) :: rs))) by (rewrite map_map; reflexivity).
  rewrite lines_concat by (apply Forall_fmap; exact Q).
  apply Forall_fmap, Forall_fmap. constructor.
  - inversion Hgood as [|? ? [_ Gm] _]; subst. destruct (Gm md eq_refl) as [_ Gs]. unfold compose, SpecReader.short. cbn [fst].
    pose proof (meta_line zone md Gs) as L. unfold header_line in L. destruct Hid as [k Hk].
    assert (length (md_uuid md) = length (uuid_prefix w) + 17).
    { rewrite Hk. unfold from_cookie. rewrite !app_length, hex16_length. cbn [length]. lia. }
    lia.
  - apply Forall_forall. intros r Hr'. apply elem_of_list_omap in Hr' as (r0 & Hr0 & Eh).
    assert (A : r0 ∈ all_accepted cf bs).
    { unfold queued in Hr0. apply elem_of_list_omap in Hr0 as (a & Ha & Ea). destruct a as [ | | | | | | | |q1 [c|] wr1| | | | | | | | ]; try discriminate Ea.
      injection Ea as <-. unfold file_actions in Ha. apply elem_of_list_In, List.filter_In in Ha as [Ha _]. apply elem_of_list_In in Ha.
      eapply sent_accepted; [exact Hn|exact Hr|]. rewrite Es. eapply sent_in. exact Ha. }
    destruct (all_accepted_size r0 A) as (L & A1 & A2 & A3). destruct (hidden_shape anon r0 r Hlen Eh L) as (raw & Er & Lr & Ea & Em).
    rewrite A3 in Em. pose proof (record_line zone r raw Er Lr Em) as B. rewrite Ea in B.
    unfold compose, SpecReader.short. cbn [fst]. lia.
Qed.

(** At every moment of every run *)
Lemma lines_short y wr f : 1 <= cap -> Forall (parses cf) bs -> fair_order w -> reachable y -> y_files y !! wr = Some f ->
  Forall SpecReader.short (SpecReader.lines (f_data f)).
Proof.
  intros Hcap Hp Hf Hr Ef. destruct (file_prefix w cf cap anon _ _ Hlen Hn bs Hc y Hr wr f Ef) as [Cr [rest Epre]].
  change (s_log (message_saver_loop w cf bs)) with (log_of w cf bs) in *.
  destruct (ends w cf cap anon (json_line zone) (header_line zone) Hlen Hn bs Hc Hp Hf y Hcap Hr) as (y' & Hy' & Fin).
  assert (Hr' : reachable y') by (eapply rtc_transitive; [exact Hr|exact Hy']).
  destruct (same_end w cf cap anon _ _ Hlen Hn bs Hc y' Hr' Fin) as [Es _].
  apply (short_prefix _ rest). rewrite <- Epre. eapply complete_short; [exact Hr'|exact Es|].
  intros K. assert (In (ACreate wr (f_path f)) (file_actions wr (log_of w cf bs))) as K2; [|rewrite K in K2; destruct K2].
  apply List.filter_In. split; [by apply elem_of_list_In|]. cbn. by rewrite Nat.eqb_refl.
Qed.

Lemma small_read_back y wr f i : 1 <= cap -> Forall (parses cf) bs -> fair_order w -> reachable y -> y_wg y = 0 -> y_files y !! wr = Some f ->
  SpecReader.solid i -> SpecReader.contents i = f_data f ->
  exists md, AHeader wr md ∈ log_of w cf bs /\
    Reader.load_all_archival_records unmarshal i = Ret (recovered anon md (queued (file_actions wr (log_of w cf bs))), None).
Proof.
  intros Hcap Hp Hf Hr Hw Ef Hs E. eapply (file_read_back w cf cap anon zone); try eassumption. by eapply lines_short.
Qed.
End Small.
