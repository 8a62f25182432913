(** Files read back. *)
From Coq Require Import Strings.String.
From stdpp Require Import gmap.
From Coq Require Import NArith ZArith Lia.
From Verif Require Import GoBase GoBaseFacts GoTime Inetdiag Netlink SpecNetlink SpecCompare RecordFacts CompareFacts
  SpecJson Archive SpecArchive ArchiveFacts LineFacts
  Cache SpecCache CacheFacts Saver SpecSaver SpecSystem SaverSteps SaverFiles SaverJobs SaverBlocks SaverRuns SaverHistory SaverTimes
  System SystemViews SystemJobs SystemInv SystemFiles SystemRefine SystemEnd SystemHidden SpecRecovered.
From Verif Require Reader SpecReader ReaderFacts.
Local Open Scope list_scope.

(** ** UUIDs *)
Lemma from_cookie_utf8 p k : utf8 p -> utf8 (from_cookie p k).
Proof.
  intros H. unfold from_cookie. apply utf8_app; [exact H|]. apply utf8_ascii. constructor; [reflexivity|].
  unfold hex16. apply Forall_rev. generalize 16%nat. intros n. revert k. induction n as [|n IH]; intros k; cbn [hex_go]; constructor; [|apply IH].
  unfold hexdigit. pose proof (N.mod_lt k 16 ltac:(lia)) as L. destruct (N.ltb_spec (k mod 16) 10); rewrite bval_byte_of, N.mod_small by lia; lia.
Qed.

(** ** Records *)
Lemma accepted_of_shape ex t msgs r : r ∈ accepted_of ex t msgs -> ar_time r = t /\ ar_meta r = None.
Proof.
  intros H. apply elem_of_list_omap in H as (m & _ & E). destruct m as [m|]; [|discriminate E].
  destruct (make_archival_record m ex) as [[ar|]| | |] eqn:R; try discriminate E. injection E as <-. cbn. split; [reflexivity|].
  revert R. unfold make_archival_record. destruct (negb _); [discriminate|].
  destruct (split_inet_diag_msg _) as [[raw ab]|]; [|discriminate]. set (x := match ex with None => _ | Some e => _ end).
  destruct x as [[]| | |]; cbn [bind]; try discriminate. destruct (parse_route_attr ab); cbn [bind]; try discriminate.
  intros E. injection E as <-. reflexivity.
Qed.
Lemma all_accepted_shape cf bs r : r ∈ all_accepted cf bs -> ar_time r ∈ block_times bs /\ ar_meta r = None.
Proof.
  unfold all_accepted, block_times. intros H. apply elem_of_list_In, in_concat in H as (x & Hx & Hr).
  apply in_map_iff in Hx as (b & <- & Hb). apply elem_of_list_In in Hr.
  assert (G : forall t, In t [V4Time b; V6Time b] -> t ∈ concat (map (fun b => [V4Time b; V6Time b]) bs)).
  { intros t Ht. apply elem_of_list_In, in_concat. exists [V4Time b; V6Time b]. split; [|exact Ht]. by apply (in_map (fun b => [V4Time b; V6Time b])). }
  unfold accepted in Hr. apply elem_of_app in Hr as [Hr|Hr]; apply accepted_of_shape in Hr as [E M]; (split; [|exact M]); apply G; rewrite E.
  - left. reflexivity.
  - right. left. reflexivity.
Qed.
Lemma block_times_blocks (T : Z -> Prop) bs : Forall T (block_times bs) -> Forall (fun b => T (V4Time b) /\ T (V6Time b)) bs.
Proof.
  induction bs as [|b bs IH]; [constructor|]. unfold block_times. cbn [map concat app]. intros H.
  inversion H as [|? ? H4 H']; subst. inversion H' as [|? ? H6 H'']; subst. constructor; [split; assumption|apply IH, H''].
Qed.

Section Recovered.
Variables (w : world) (cf : config) (cap : nat) (anon : bytes -> bytes) (zone : Z -> Z).
Hypothesis Hlen : forall x, length (anon x) = length x.
Hypothesis Hn : 1 <= nmarsh cf.
Variable bs : list block.
Hypothesis Hc : all_comparable cf bs.
Hypothesis Ht : Forall (writable_time zone) (zero_time :: block_times bs).
Hypothesis Hu : utf8 (uuid_prefix w).
Hypothesis Hb : (Z.of_nat (length (log_of w cf bs)) <= 9223372036854775807)%Z.
Notation reachable := (reachable w cf cap anon (json_line zone) (header_line zone) bs).

Definition good_record (r : archival) : Prop := writable zone r /\ forall md, ar_meta r = Some md -> proper_metadata md.
Definition as_line (r : archival) : bytes := json_line zone r ++ [x0a].

(** The full contents of a file *)
Lemma full_contents y wr : reachable y -> y_saver y = message_saver_loop w cf bs ->
  file_actions wr (log_of w cf bs) <> [] ->
  exists md, AHeader wr md ∈ log_of w cf bs /\
    let rs := mkar zero_time None [] (Some md) :: omap (hidden anon) (queued (file_actions wr (log_of w cf bs))) in
    contents anon (json_line zone) (header_line zone) wr (log_of w cf bs) = concat (map as_line rs) /\ Forall good_record rs.
Proof.
  intros Hr Es Ne. destruct (all_invariants w cf cap anon _ _ Hlen Hn bs y Hr) as (I1 & _).
  pose proof (file_histories w cf (y_saver y) wr (proj1 I1)) as FH. rewrite Es in FH. change (s_log (message_saver_loop w cf bs)) with (log_of w cf bs) in FH.
  destruct FH as [F|(cl & q0 & k & md & recs & path' & F & Hk & Hid & _)]; [contradiction|].
  assert (Sub : forall a, a ∈ file_actions wr (log_of w cf bs) -> a ∈ log_of w cf bs).
  { intros a Ha. unfold file_actions in Ha. apply elem_of_list_In, List.filter_In in Ha as [Ha _]. by apply elem_of_list_In. }
  exists md. split; [|split].
  - apply Sub. rewrite F. unfold written. right. left.
  - unfold contents. rewrite F. unfold written. cbn [app map concat file_line]. unfold as_line at 1. f_equal. rewrite map_app, concat_app.
    assert (concat (map (file_line anon (json_line zone) (header_line zone)) (if cl then [ASend q0 None wr] else [])) = []) as -> by (by destruct cl).
    rewrite app_nil_r. unfold queued. cbn [omap list_omap]. rewrite omap_app.
    assert (omap (fun a => match a with ASend _ (Some m) _ => Some (c_ar m) | _ => None end) (if cl then [ASend q0 None wr] else []) = []) as -> by (by destruct cl).
    rewrite app_nil_r. clear F. induction recs as [|c recs IH]; [done|]. cbn [map concat omap list_omap file_line]. rewrite IH.
    destruct (hidden anon (c_ar c)); done.
  - inversion Ht as [|? ? Ht0 Ht1]; subst. constructor.
    + assert (Hmd : AHeader wr md ∈ log_of w cf bs) by (apply Sub; rewrite F; unfold written; right; left).
      destruct (headers_fine w cf (writable_time zone) bs wr md (block_times_blocks _ bs Ht1) Hmd) as [H1 H2].
      change (s_log (message_saver_loop w cf bs)) with (log_of w cf bs) in H2. split.
      * split; [exact Ht0|]. cbn. intros md' E. injection E as <-. exact H1.
      * cbn. intros md' E. injection E as <-. split; [rewrite Hid; by apply from_cookie_utf8|]. lia.
    + apply Forall_forall. intros r Hr'. apply elem_of_list_omap in Hr' as (r0 & Hr0 & Eh).
      assert (A : r0 ∈ all_accepted cf bs).
      { unfold queued in Hr0. apply elem_of_list_omap in Hr0 as (a & Ha & Ea). destruct a as [ | | | | | | | |q1 [c|] wr1| | | | | | | | ]; try discriminate Ea.
        injection Ea as <-. apply Sub in Ha. eapply sent_accepted; [exact Hn|exact Hr|]. rewrite Es. eapply sent_in. exact Ha. }
      apply all_accepted_shape in A as [A1 A2]. unfold hidden in Eh. destruct (hidden_header anon (header r0)) as [h|]; [|discriminate Eh].
      injection Eh as <-. rewrite Forall_forall in Ht1. split; [split; [exact (Ht1 _ A1)|]|]; cbn; rewrite A2; intros md' E; discriminate E.
Qed.

(** Reading good records back *)
Lemma read_records i rs : Forall good_record rs -> SpecReader.solid i -> SpecReader.contents i = concat (map as_line rs) ->
  Forall SpecReader.short (SpecReader.lines (SpecReader.contents i)) ->
  Reader.load_all_archival_records unmarshal i = Ret (map read_back rs, None).
Proof.
  intros G S E Sh. apply (ReaderFacts.load_all_lines unmarshal unmarshal_proper); [exact S|exact Sh|]. rewrite E.
  assert (Q : Forall (fun r => exists b, json_line zone r = b /\ unmarshal b = Ret (read_back r) /\ ~ In x0a b /\ ~ In x0d b) rs).
  { eapply Forall_impl; [exact G|]. intros r [Hw Hm]. destruct (round_trip zone r Hw Hm) as (b & M & U & N1 & N2). exists b.
    split; [unfold json_line; by rewrite M|by repeat split]. }
  replace (map as_line rs) with (map (fun l => l ++ [x0a]) (map (json_line zone) rs)) by (rewrite map_map; reflexivity).
  rewrite lines_concat.
  - clear E Sh S G. induction Q as [|r rs (b & Eb & U & N1 & N2) _ IH]; cbn [map]; constructor; [|exact IH].
    unfold SpecReader.line_record. cbn [fst]. rewrite Eb, no_cr by exact N2. exact U.
  - apply Forall_fmap. eapply Forall_impl; [exact Q|]. intros r (b & Eb & _ & N1 & _). cbv beta in *. cbn. rewrite Eb. exact N1.
Qed.

(** Where the beginning of some lines ends *)
Lemma part_of rs : forall d rest, d ++ rest = concat (map as_line rs) -> exists whole rest' p, rs = whole ++ rest' /\ d = concat (map as_line whole) ++ p /\
  (p = [] \/ exists r rest'' q, rest' = r :: rest'' /\ p <> [] /\ json_line zone r = p ++ q).
Proof.
  induction rs as [|r rs IH]; intros d rest E.
  - cbn in E. apply app_eq_nil in E as [-> ->]. exists [], [], []. split; [done|]. split; [done|]. by left.
  - cbn [map concat] in E. destruct (decide (length (as_line r) <= length d)) as [L|L].
    + assert (E' : exists d', d = as_line r ++ d').
      { exists (skipn (length (as_line r)) d). rewrite <- (firstn_skipn (length (as_line r)) d) at 1. f_equal.
        apply (f_equal (firstn (length (as_line r)))) in E. rewrite take_app_le in E by exact L. rewrite E. by rewrite take_app. }
      destruct E' as [d' ->]. rewrite <- app_assoc in E. apply app_inv_head in E. destruct (IH d' rest E) as (whole & rest' & p & -> & -> & H).
      exists (r :: whole), rest', p. split; [done|]. split; [cbn [map concat]; by rewrite app_assoc|exact H].
    + exists [], (r :: rs), d. split; [done|]. split; [done|]. destruct d as [|x d]; [by left|]. right.
      assert (E' : exists q, json_line zone r = (x :: d) ++ q).
      { exists (skipn (length (x :: d)) (json_line zone r)). rewrite <- (firstn_skipn (length (x :: d)) (json_line zone r)) at 1. f_equal.
        apply (f_equal (firstn (length (x :: d)))) in E. rewrite take_app in E.
        unfold as_line in E, L. rewrite app_length in L. rewrite <- app_assoc in E. rewrite take_app_le in E by (clear -L; cbn [length] in *; lia). symmetry. exact E. }
      destruct E' as [q E']. exists r, rs, q. split; [done|]. split; [done|exact E'].
Qed.

Lemma read_cut i rs rest : Forall good_record rs -> SpecReader.solid i -> SpecReader.contents i ++ rest = concat (map as_line rs) ->
  Forall SpecReader.short (SpecReader.lines (SpecReader.contents i)) ->
  exists got e, Reader.load_all_archival_records unmarshal i = Ret (got, e) /\
    read_part (json_line zone) rs (SpecReader.contents i) got e.
Proof.
  intros G S E Sh. destruct (part_of rs _ _ E) as (whole & rest' & p & -> & Ec & H).
  apply Forall_app in G as [G1 G2].
  assert (Q : forall r, good_record r -> exists b, json_line zone r = b /\ unmarshal b = Ret (read_back r) /\ ~ In x0a b /\ ~ In x0d b).
  { intros r [Hw Hm]. destruct (round_trip zone r Hw Hm) as (b & M & U & N1 & N2). exists b.
    split; [unfold json_line; by rewrite M|by repeat split]. }
  assert (F : Forall2 (fun l r => SpecReader.line_record unmarshal l = Ret r) (map (fun l => (l, true)) (map (json_line zone) whole)) (map read_back whole)).
  { clear Ec E. induction G1 as [|r whole Hr _ IH]; cbn [map]; constructor; [|exact IH]. destruct (Q r Hr) as (b & Eb & U & N1 & N2).
    unfold SpecReader.line_record. cbn [fst]. rewrite Eb, no_cr by exact N2. exact U. }
  assert (EL : SpecReader.lines (SpecReader.contents i) = map (fun l => (l, true)) (map (json_line zone) whole) ++ SpecReader.lines p).
  { rewrite Ec. replace (map as_line whole) with (map (fun l => l ++ [x0a]) (map (json_line zone) whole)) by (rewrite map_map; reflexivity).
    apply lines_app. apply Forall_fmap. eapply Forall_impl; [exact G1|]. intros r Hr. cbn. destruct (Q r Hr) as (b & -> & _ & N1 & _). exact N1. }
  destruct H as [->|(r & rest'' & q & -> & Np & Er)].
  - exists (map read_back whole), None. split.
    + apply (ReaderFacts.load_all_lines unmarshal unmarshal_proper); [exact S|exact Sh|]. rewrite EL. change (SpecReader.lines []) with (@nil (bytes * bool)). by rewrite app_nil_r.
    + exists whole, rest', []. split; [done|]. split; [exact Ec|]. by left.
  - inversion G2 as [|? ? Gr _]; subst. destruct (Q r Gr) as (b & Eb & U & N1 & N2). rewrite Er in Eb.
    assert (Lp : SpecReader.lines p = [(p, false)]).
    { apply lines_part; [exact Np|]. intros K. apply N1. rewrite <- Eb. apply in_or_app. by left. }
    assert (Rp : SpecReader.without_cr p = p). { apply no_cr. intros K. apply N2. rewrite <- Eb. apply in_or_app. by left. }
    rewrite Lp in EL. destruct q as [|x q].
    + rewrite app_nil_r in Eb, Er. exists (map read_back (whole ++ [r])), None. split.
      * apply (ReaderFacts.load_all_lines unmarshal unmarshal_proper); [exact S|exact Sh|]. rewrite EL, map_app. apply Forall2_app; [exact F|].
        constructor; [|constructor]. unfold SpecReader.line_record. cbn [fst]. rewrite Rp, Eb. exact U.
      * exists whole, (r :: rest''), p. split; [done|]. split; [exact Ec|]. right. exists r, rest''. split; [done|]. left. by rewrite Er.
    + exists (map read_back whole), (Some ErrJSON). split.
      * apply (ReaderFacts.load_first_error unmarshal unmarshal_proper); [exact S|exact Sh|]. rewrite EL. eexists _, _, []. split; [reflexivity|]. split; [exact F|].
        unfold SpecReader.line_record. cbn [fst]. rewrite Rp. destruct Gr as [Gw Gm]. apply (cut_line zone r p (x :: q) Gw Gm Er). discriminate.
      * exists whole, (r :: rest''), p. split; [done|]. split; [exact Ec|]. right. exists r, rest''. split; [done|]. right. split; [exact Np|].
        split; [by exists (x :: q)|done].
Qed.

Lemma file_read_back y wr f i : Forall (parses cf) bs -> fair_order w -> reachable y -> y_wg y = 0 -> y_files y !! wr = Some f ->
  SpecReader.solid i -> SpecReader.contents i = f_data f -> Forall SpecReader.short (SpecReader.lines (f_data f)) ->
  exists md, AHeader wr md ∈ log_of w cf bs /\
    Reader.load_all_archival_records unmarshal i = Ret (recovered anon md (queued (file_actions wr (log_of w cf bs))), None).
Proof.
  intros Hp Hf Hr Hw Ef S E Sh.
  destruct (wait_complete w cf cap anon _ _ Hlen Hn bs Hc Hp Hf y Hr Hw) as [Fin H]. destruct (H wr f Ef) as [_ Ed].
  destruct (same_end w cf cap anon _ _ Hlen Hn bs Hc y Hr Fin) as [Es Ff]. rewrite Ff in Ef. unfold final_file in Ef.
  change (s_log (message_saver_loop w cf bs)) with (log_of w cf bs) in *.
  destruct (full_contents y wr Hr Es) as (md & Hmd & Hcon & Hgood).
  { intros K. rewrite K in Ef. discriminate Ef. }
  exists md. split; [exact Hmd|]. rewrite (read_records i _ Hgood S).
  - reflexivity.
  - rewrite E, Ed. exact Hcon.
  - rewrite E. exact Sh.
Qed.
Lemma file_next y wr f i : Forall (parses cf) bs -> fair_order w -> reachable y -> y_wg y = 0 -> y_files y !! wr = Some f ->
  SpecReader.solid i -> SpecReader.contents i = f_data f -> Forall SpecReader.short (SpecReader.lines (f_data f)) ->
  exists md, AHeader wr md ∈ log_of w cf bs /\
    SpecSnapshot.yields (Reader.archive_next unmarshal) (Reader.new_scanner i)
      (recovered anon md (queued (file_actions wr (log_of w cf bs)))) ErrEOF.
Proof.
  intros Hp Hf Hr Hw Ef S E Sh. destruct (file_read_back y wr f i Hp Hf Hr Hw Ef S E Sh) as (md & Hmd & L). exists md. split; [exact Hmd|].
  rewrite <- E in Sh. apply (ReaderFacts.load_all_lines unmarshal unmarshal_proper) in L; [|exact S|exact Sh].
  apply (ReaderFacts.archive_yields unmarshal).
  - apply ReaderFacts.good_new, S.
  - unfold ReaderFacts.rest, Reader.new_scanner. cbn [Reader.sc_in Reader.sc_data app]. eapply Forall_impl; [exact Sh|].
    intros l Hl. by apply ReaderFacts.short_fits.
  - exact L.
Qed.

(** At any moment, and whatever part of the data has reached the disk *)
Lemma part_read_back y wr f d rest i : 1 <= cap -> Forall (parses cf) bs -> fair_order w -> reachable y -> y_files y !! wr = Some f ->
  f_data f = d ++ rest -> SpecReader.solid i -> SpecReader.contents i = d -> Forall SpecReader.short (SpecReader.lines d) ->
  exists md, AHeader wr md ∈ log_of w cf bs /\ exists got e,
    Reader.load_all_archival_records unmarshal i = Ret (got, e) /\
    read_part (json_line zone) (mkar zero_time None [] (Some md) :: omap (hidden anon) (queued (file_actions wr (log_of w cf bs)))) d got e.
Proof.
  intros Hcap Hp Hf Hr Ef Ed S E Sh.
  destruct (file_prefix w cf cap anon _ _ Hlen Hn bs Hc y Hr wr f Ef) as [Cr [rest2 Epre]].
  change (s_log (message_saver_loop w cf bs)) with (log_of w cf bs) in *.
  destruct (ends w cf cap anon (json_line zone) (header_line zone) Hlen Hn bs Hc Hp Hf y Hcap Hr) as (y' & Hy' & Fin).
  assert (Hr' : reachable y') by (eapply rtc_transitive; [exact Hr|exact Hy']).
  destruct (same_end w cf cap anon _ _ Hlen Hn bs Hc y' Hr' Fin) as [Es _].
  destruct (full_contents y' wr Hr' Es) as (md & Hmd & Hcon & Hgood).
  { intros K. assert (In (ACreate wr (f_path f)) (file_actions wr (log_of w cf bs))) as K2; [|rewrite K in K2; destruct K2].
    apply List.filter_In. split; [by apply elem_of_list_In|]. cbn. by rewrite Nat.eqb_refl. }
  exists md. split; [exact Hmd|]. subst d. eapply read_cut; [exact Hgood|exact S| |exact Sh].
  rewrite <- Hcon, Epre, Ed, <- !app_assoc. reflexivity.
Qed.
End Recovered.
