(** Proofs about csvtool. *)
From Coq Require Import Strings.String.
From stdpp Require Import base list relations.
From Coq Require Import NArith ZArith Lia.
From Verif Require Import Zstd ZstdReader P_ZstdReader GoBase GoBaseFacts NetIP Inetdiag Netlink SpecNetlink SpecConfig SpecAddrText Reader SpecReader ReaderFacts
  Snapshot SpecSnapshot SnapshotFacts Archive ArchiveFacts SmallFiles RecordFacts AddrTextFacts CsvTool SpecCsv.
Local Open Scope list_scope.

(** ** Numerals *)
Lemma dec_go_last f n : (n < 10 ^ N.of_nat f)%N -> f <> 0 -> exists l d, dec_go f n = l ++ [digit d] /\ (d < 10)%N /\ (d = 0%N -> l = [] /\ n = 0%N).
Proof.
  revert n. induction f as [|f IH]; intros n Hn Hf; [lia|]. cbn [dec_go]. destruct (N.ltb_spec n 10) as [L|L].
  - exists [], n. split; [reflexivity|]. split; [exact L|]. intros ->. split; reflexivity.
  - rewrite Nat2N.inj_succ, N.pow_succ_r' in Hn.
    destruct (IH (n / 10)%N) as (l & d & E & D & Z).
    + apply N.div_lt_upper_bound; lia.
    + intros ->. cbn in Hn. lia.
    + exists (digit (n mod 10) :: l), d. rewrite E. split; [reflexivity|]. split; [exact D|]. intros ->. destruct (Z eq_refl) as (_ & Q).
      exfalso. apply N.div_small_iff in Q; lia.
Qed.
Lemma pow2_10 k : (2 ^ k <= 10 ^ k)%N.
Proof. apply N.pow_le_mono_l. lia. Qed.
Lemma dec_numeral n : numeral (dec n) n.
Proof.
  split; [apply dec_nonempty|]. split; [|split].
  - pose proof (dec_digits n) as H. eapply List.Forall_impl; [|exact H]. intros b Hb. unfold is_digit in Hb. apply andb_prop in Hb as [A B].
    apply N.leb_le in A, B. split; assumption.
  - exact (vald_dec n).
  - unfold dec. destruct (dec_go_last (S (N.size_nat n)) n) as (l & d & E & D & Z); [|lia|].
    + pose proof (size_bound n). pose proof (pow2_10 (N.of_nat (N.size_nat n))). rewrite Nat2N.inj_succ, N.pow_succ_r'. lia.
    + rewrite E, rev_app_distr. cbn [rev app hd]. intros Q. assert (d = 0%N) as ->.
      { apply (f_equal bval) in Q. rewrite bval_digit in Q by exact D. change (bval x30) with 48%N in Q. lia. }
      destruct (Z eq_refl) as (-> & _). cbn. rewrite Q. reflexivity.
Qed.

Lemma hexdigit_value d : (d < 16)%N -> hex_digit_value (hexdigit d) d /\ (bval (hexdigit d) < 97)%N /\ (hexdigit d = x30 -> d = 0%N).
Proof.
  intros H. unfold hexdigit, hex_digit_value. destruct (N.ltb_spec d 10).
  - assert (E : bval (byte_of (48 + d)) = (48 + d)%N) by (rewrite bval_byte_of, N.mod_small by lia; reflexivity).
    rewrite E. split; [left; lia|]. split; [lia|]. intros Q. rewrite Q in E. change (bval x30) with 48%N in E. lia.
  - assert (E : bval (byte_of (55 + d)) = (55 + d)%N) by (rewrite bval_byte_of, N.mod_small by lia; reflexivity).
    rewrite E. split; [right; right; lia|]. split; [lia|]. intros Q. rewrite Q in E. change (bval x30) with 48%N in E. lia.
Qed.
Lemma hex_min_value f n : (n < 16 ^ N.of_nat f)%N -> f <> 0 -> hex_value (rev (hex_min f n)) n /\ Forall (fun c => (bval c < 97)%N) (hex_min f n) /\
  exists l d, hex_min f n = l ++ [hexdigit d] /\ (d < 16)%N /\ (d = 0%N -> l = [] /\ n = 0%N).
Proof.
  revert n. induction f as [|f IH]; intros n Hn Hf; [lia|]. cbn [hex_min]. destruct (N.ltb_spec n 16) as [L|L].
  - destruct (hexdigit_value n L) as (A & B & _). cbn [rev app]. split; [|split].
    + replace n with (16 * 0 + n)%N at 2 by lia. apply (hv_snoc [] (hexdigit n) 0 n); [constructor|exact A].
    + constructor; [exact B|constructor].
    + exists [], n. split; [reflexivity|]. split; [exact L|]. intros ->. split; reflexivity.
  - rewrite Nat2N.inj_succ, N.pow_succ_r' in Hn.
    assert (M : (n mod 16 < 16)%N) by (apply N.mod_lt; lia).
    destruct (hexdigit_value (n mod 16) M) as (A & B & _).
    destruct (IH (n / 16)%N) as (V & F & l & d & E & D & Z).
    + apply N.div_lt_upper_bound; lia.
    + intros ->. cbn in Hn. lia.
    + cbn [rev]. split; [|split].
      * rewrite (N.div_mod n 16) at 3 by lia. constructor; assumption.
      * constructor; assumption.
      * exists (hexdigit (n mod 16) :: l), d. rewrite E. split; [reflexivity|]. split; [exact D|]. intros ->. destruct (Z eq_refl) as (_ & Q).
        exfalso. apply N.div_small_iff in Q; lia.
Qed.
Lemma hexX_numeral n : hex_numeral (hexX n) n.
Proof.
  unfold hexX, hex_numeral. destruct (hex_min_value (S (N.size_nat n)) n) as (V & F & l & d & E & D & Z); [|lia|].
  - pose proof (size_bound n). assert (2 ^ N.of_nat (N.size_nat n) <= 16 ^ N.of_nat (N.size_nat n))%N by (apply N.pow_le_mono_l; lia).
    rewrite Nat2N.inj_succ, N.pow_succ_r'. lia.
  - split; [|split; [exact V|split]].
    + rewrite E, rev_app_distr. discriminate.
    + apply List.Forall_rev. exact F.
    + rewrite E, rev_app_distr. cbn [rev app hd]. intros Q. apply (proj2 (proj2 (hexdigit_value d D))) in Q as Q0. subst d.
      destruct (Z eq_refl) as (-> & _). cbn. reflexivity.
Qed.

(** ** The six cells *)
Lemma sock_csv_cells raw m : parse_idm (Some raw) = Ret m -> sock_cells raw (sock_csv (idiag_id m)).
Proof.
  intros H. apply parse_idm_ret in H. destruct H as (b & E & L & ->). injection E as <-.
  assert (Ls : length (hdr_src raw) = 16) by (unfold hdr_src, at_; rewrite firstn_length, skipn_length; lia).
  assert (Ld : length (hdr_dst raw) = 16) by (unfold hdr_dst, at_; rewrite firstn_length, skipn_length; lia).
  unfold sock_cells, sock_csv. do 6 eexists. split; [reflexivity|].
  split; [exact (dec_numeral (hdr_sport raw))|]. split; [exact (dec_numeral (hdr_dport raw))|].
  split; [exact (ip_text (hdr_src raw) Ls)|]. split; [exact (ip_text (hdr_dst raw) Ld)|].
  split; [exact (dec_numeral (hdr_if raw))|]. exact (hexX_numeral (hdr_cookie raw)).
Qed.

(** ** The archive reader as a source for LoadAll, whatever its lines are *)
Section Source.
Variable u : bytes -> outcome archival.
Hypothesis total : proper_unmarshal u.
Lemma yields_records fuel s : good s -> length (rest s) < fuel ->
  let (rs, e) := records_of u (in_eager (sc_in s)) (lines (rest s)) in
  yields (archive_next u) s rs (match e with Some e => e | None => ErrEOF end) /\ length rs <= length (rest s).
Proof.
  revert s. induction fuel as [|fuel IH]; intros s G L; [lia|]. pose proof (scan_spec s G) as SP.
  destruct (lines (rest s)) as [|l ls].
  - destruct SP as (s' & E & _). cbn [records_of]. split; [|cbn; lia]. apply yields_end with (s' := s'). unfold archive_next. rewrite E. reflexivity.
  - cbn [records_of]. destruct (fits (in_eager (sc_in s)) l).
    + destruct SP as (s' & E & G' & LS & Eg & _ & LT & _). specialize (IH s' G' ltac:(lia)). rewrite LS, Eg in IH.
      destruct (total (without_cr (fst l))) as [(r & Er)|(e & Er & N)]; rewrite Er.
      * destruct (records_of u (in_eager (sc_in s)) ls) as [rs e]. destruct IH as [Y Ln]. split; [|cbn; lia].
        apply yields_more with (s' := s'); [unfold archive_next; rewrite E, Er; reflexivity|exact Y].
      * split; [|cbn; lia]. apply yields_end with (s' := s'). unfold archive_next. rewrite E, Er. reflexivity.
    + destruct SP as (s' & E & _). split; [|cbn; lia]. apply yields_end with (s' := s'). unfold archive_next. rewrite E. reflexivity.
Qed.
End Source.

Section Convert.
Variable to_csv : list snapshot -> bytes * bool.
(** A line holds a record that decodes to snapshot s. *)
Definition line_shows (l : bytes * bool) (s : snapshot) : Prop := exists r, line_record unmarshal l = Ret r /\ decode (timed r) = Ret (ar_meta r, s).
(** The lines before the first one that is too long *)
Definition readable (eager : bool) (ls ls1 : list (bytes * bool)) : Prop :=
  exists ls2, ls = ls1 ++ ls2 /\ Forall (fun l => fits eager l = true) ls1 /\ (ls2 = [] \/ exists l t, ls2 = l :: t /\ fits eager l = false).

Lemma loaded i : solid i -> exists rs e, records_of unmarshal (in_eager i) (lines (contents i)) = (rs, e) /\
  yields (archive_next unmarshal) (new_scanner i) rs (match e with Some e => e | None => ErrEOF end) /\ length rs < S (S (length (concat (in_chunks i)))).
Proof.
  intros S0. pose proof (yields_records unmarshal unmarshal_proper (S (length (rest (new_scanner i)))) (new_scanner i) (good_new i S0) ltac:(lia)) as H.
  unfold rest, new_scanner in H. cbn [sc_in sc_data app] in H. fold (new_scanner i) in H. unfold contents in *.
  destruct (records_of unmarshal (in_eager i) (lines (concat (in_chunks i)))) as [rs e]. exists rs, e. destruct H as [Y L]. split; [reflexivity|]. split; [exact Y|lia].
Qed.
Lemma records_none eager ls rs : records_of unmarshal eager ls = (rs, None) <-> exists ls1, readable eager ls ls1 /\ Forall2 (fun l r => line_record unmarshal l = Ret r) ls1 rs.
Proof.
  revert rs. induction ls as [|l ls IH]; intros rs; cbn [records_of].
  - split.
    + intros H. injection H as <-. exists []. split; [|constructor]. exists []. split; [reflexivity|]. split; [constructor|left; reflexivity].
    + intros (ls1 & (ls2 & E & _) & F). destruct ls1; [|discriminate E]. inversion F. reflexivity.
  - destruct (fits eager l) eqn:Fi.
    + destruct (unmarshal_proper (without_cr (fst l))) as [(r & Er)|(e & Er & N)]; rewrite Er.
      * destruct (records_of unmarshal eager ls) as [rs' e'] eqn:R. split.
        -- intros H. injection H as <- ->. destruct (proj1 (IH rs') eq_refl) as (ls1 & (ls2 & -> & Fa & D) & F). exists (l :: ls1). split.
           ++ exists ls2. split; [reflexivity|]. split; [constructor; assumption|exact D].
           ++ constructor; [exact Er|exact F].
        -- intros (ls1 & (ls2 & E & Fa & D) & F). destruct ls1 as [|l1 ls1].
           ++ cbn in E. subst ls2. destruct D as [D|(l' & t & D & Fi')]; [discriminate D|]. injection D as <- _. congruence.
           ++ injection E as <- E. inversion Fa; subst. inversion F as [|? r' ? rs2 E1 F2]; subst.
              assert (Q : (rs', e') = (rs2, None)) by (apply IH; exists ls1; split; [exists ls2; auto|exact F2]). injection Q as -> ->.
              unfold line_record in E1. rewrite Er in E1. injection E1 as <-. reflexivity.
      * split; [discriminate|]. intros (ls1 & (ls2 & E & Fa & D) & F). destruct ls1 as [|l1 ls1].
        -- cbn in E. subst ls2. destruct D as [D|(l' & t & D & Fi')]; [discriminate D|]. injection D as <- _. congruence.
        -- injection E as <- E. inversion F as [|? r' ? rs2 E1 F2]; subst. unfold line_record in E1. congruence.
    + split.
      * intros H. injection H as <-. exists []. split; [|constructor]. exists (l :: ls). split; [reflexivity|]. split; [constructor|]. right. exists l, ls. split; [reflexivity|exact Fi].
      * intros (ls1 & (ls2 & E & Fa & D) & F). destruct ls1 as [|l1 ls1]; [inversion F; reflexivity|]. injection E as <- E. inversion Fa; subst. congruence.
Qed.
Lemma lines_show ls ss : Forall2 line_shows ls ss <-> exists rs, Forall2 (fun l r => line_record unmarshal l = Ret r) ls rs /\ Forall2 (fun r s => decode (timed r) = Ret (ar_meta r, s)) rs ss.
Proof.
  split.
  - induction 1 as [|l s ls ss (r & A & B) _ (rs & C & D)]; [exists []; split; constructor|]. exists (r :: rs). split; constructor; assumption.
  - intros (rs & A & B). revert ss B. induction A as [|l r ls rs E A IH]; intros ss B; inversion B; subst; constructor; [exists r; split; assumption|apply IH; assumption].
Qed.

Lemma loads_shown i : solid i -> forall ss,
  (exists m, load_all (S (S (length (concat (in_chunks i))))) (archive_next unmarshal) (new_scanner i) = Ret (m, ss)) <->
  exists ls, readable (in_eager i) (lines (contents i)) ls /\ Forall2 line_shows ls ss.
Proof.
  intros S0 ss. destruct (loaded i S0) as (rs & e & E & Y & L). split.
  - intros (m & Q). apply (load_all_ret _ _ _ _ _ _ _ Y L) in Q as (Qe & _ & F2).
    assert (e = None) as ->.
    { destruct e as [e|]; [|reflexivity]. subst e. exfalso. clear -E. revert rs E. induction (lines (contents i)) as [|l ls IH]; intros rs E; cbn [records_of] in E; [discriminate E|].
      destruct (fits (in_eager i) l); [|discriminate E]. destruct (unmarshal_proper (without_cr (fst l))) as [(r & Er)|(e & Er & N)]; rewrite Er in E.
      - destruct (records_of unmarshal (in_eager i) ls) as [rs' e'] eqn:R. injection E as <- ->. exact (IH _ eq_refl).
      - injection E as _ ->. contradiction N; reflexivity. }
    apply records_none in E as (ls & R & F1). exists ls. split; [exact R|]. apply lines_show. exists rs. split; assumption.
  - intros (ls & R & F). apply lines_show in F as (rs' & F1 & F2).
    assert (Q : (rs, e) = (rs', None)) by (rewrite <- E; apply records_none; exists ls; split; assumption). injection Q as -> ->.
    exists (last_meta rs'). apply (load_all_ret _ _ _ _ _ _ _ Y L). split; [reflexivity|split; [reflexivity|exact F2]].
Qed.
(** Standard output holds what gocsv.Marshal makes of the readable lines, or
    nothing. *)
Lemma convert_cases i : solid i ->
  (exists ls ss, readable (in_eager i) (lines (contents i)) ls /\ Forall2 line_shows ls ss /\
    convert to_csv i = (fst (to_csv ss), if snd (to_csv ss) then Exit0 else Fatal))
  \/ ((forall ls ss, readable (in_eager i) (lines (contents i)) ls -> ~ Forall2 line_shows ls ss) /\
      (convert to_csv i = ([], Fatal) \/ convert to_csv i = ([], Panicked))).
Proof.
  intros S0. pose proof (loads_shown i S0) as K. unfold convert. destruct (load_all _ _ _) as [[m ss]|x| |] eqn:Q.
  1:{ left. destruct (proj1 (K ss)) as (ls & R & F); [exists m; reflexivity|]. exists ls, ss. split; [exact R|]. split; [exact F|]. destruct (to_csv ss) as [out [|]]; reflexivity. }
  all: right; split; [|auto]; intros ls ss R F; destruct (proj2 (K ss)) as (m & E); [exists ls; split; assumption|discriminate E].
Qed.
Lemma shows_unique ls ss ss' : Forall2 line_shows ls ss -> Forall2 line_shows ls ss' -> ss = ss'.
Proof.
  intros F. revert ss'. induction F as [|l s ls ss (r & A & B) _ IH]; intros ss' F'; inversion F' as [|? s' ? ss2 (r' & A' & B') F2]; subst; [reflexivity|].
  rewrite A in A'. injection A' as <-. rewrite B in B'. injection B' as <-. f_equal. apply IH. exact F2.
Qed.
Lemma readable_short eager ls ls1 : Forall short ls -> readable eager ls ls1 <-> ls1 = ls.
Proof.
  intros S0. split.
  - intros (ls2 & -> & _ & [->|(l & t & -> & N)]); [rewrite app_nil_r; reflexivity|]. apply Forall_app in S0. destruct S0 as [_ S0]. inversion S0; subst.
    exfalso. rewrite (short_fits eager l) in N by assumption. discriminate N.
  - intros ->. exists []. rewrite app_nil_r. split; [reflexivity|]. split; [|left; reflexivity]. eapply List.Forall_impl; [|exact S0]. intros l. apply short_fits.
Qed.
Lemma convert_ok i out : solid i -> Forall short (lines (contents i)) ->
  (convert to_csv i = (out, Exit0) <-> exists ss, says (contents i) ss /\ to_csv ss = (out, true)).
Proof.
  intros S0 Sh. unfold says. change (fun l s => exists r, line_record unmarshal l = Ret r /\ decode (timed r) = Ret (ar_meta r, s)) with line_shows.
  destruct (convert_cases i S0) as [(ls & ss & R & F & ->)|(N & D)].
  - apply readable_short in R; [|exact Sh]. subst ls. split.
    + intros H. exists ss. split; [exact F|]. destruct (to_csv ss) as [o [|]]; cbn in H; injection H as ->; [reflexivity|discriminate].
    + intros (ss' & F' & E). rewrite (shows_unique _ _ _ F F'), E. reflexivity.
  - split; [intros H; destruct D as [D|D]; rewrite D in H; discriminate H|]. intros (ss & F & _). exfalso. apply (N (lines (contents i)) ss); [|exact F].
    apply readable_short; [exact Sh|reflexivity].
Qed.
Lemma convert_output i out e : solid i -> Forall short (lines (contents i)) -> convert to_csv i = (out, e) -> out <> [] ->
  exists ss, says (contents i) ss /\ out = fst (to_csv ss).
Proof.
  intros S0 Sh H N. destruct (convert_cases i S0) as [(ls & ss & R & F & E)|(_ & [D|D])].
  - apply readable_short in R; [|exact Sh]. subst ls. exists ss. split; [exact F|]. rewrite E in H. injection H as <- _. reflexivity.
  - rewrite D in H. injection H as <- _. contradiction N; reflexivity.
  - rewrite D in H. injection H as <- _. contradiction N; reflexivity.
Qed.

(** ** Compressed files *)
Lemma lines_from_app p q cur : lines_from cur (p ++ x0a :: q) = lines_from cur (p ++ [x0a]) ++ lines_from [] q.
Proof.
  revert cur. induction p as [|x p IH]; intros cur; cbn [app lines_from]; [reflexivity|].
  destruct (Byte.eqb x x0a); [rewrite IH; reflexivity|apply IH].
Qed.
Lemma short_ended p cur : Forall short (lines_from cur p) -> short (cur, false) -> Forall short (lines_from cur (p ++ [x0a])).
Proof.
  revert cur. induction p as [|x p IH]; intros cur H C; cbn [app lines_from] in *.
  - constructor; [exact C|constructor].
  - destruct (Byte.eqb x x0a).
    + inversion H; subst. constructor; [assumption|]. apply IH; [assumption|]. unfold short. cbn. lia.
    + apply IH; [exact H|].
      cut (exists l t, lines_from (cur ++ [x]) p = l :: t /\ length (cur ++ [x]) <= length (fst l)).
      { intros (l & t & E & L). rewrite E in H. inversion H as [|? ? H1 _]; subst. unfold short in *. cbn [fst] in *. lia. }
      clear. assert (K : cur ++ [x] <> []) by (destruct cur; discriminate). revert K. generalize (cur ++ [x]) as c. clear. induction p as [|y p IH]; intros c K.
      * destruct c as [|c0 c]; [contradiction K; reflexivity|]. exists (c0 :: c, false), []. split; [reflexivity|cbn; lia].
      * cbn [lines_from]. destruct (Byte.eqb y x0a); [eexists _, _; split; [reflexivity|cbn [fst]; lia]|].
        destruct (IH (c ++ [y])) as (l & t & E & L); [destruct c; discriminate|]. exists l, t. split; [exact E|]. rewrite app_length in L. lia.
Qed.
Lemma reads_nonempty f s : rreach f s -> Forall (fun c => c <> []) (reads (rp_log s)).
Proof.
  apply (rtc_ind_r (R := rstep f) (fun s => Forall (fun c => c <> []) (reads (rp_log s))) new_reader); [constructor|].
  clear s. intros s s' _ H IH. destruct H as [s' H|s' H]; destruct H; cbn [rp_log]; try exact IH; unfold reads; rewrite omap_app; apply Forall_app; (split; [exact IH|]); cbn; repeat constructor. assumption.
Qed.
Lemma treach_inv f s ph : treach to_csv f (s, ph) -> rreach f s /\
  match ph with
  | TReading => True
  | TDone out e => REof ∈ rp_log s /\ convert to_csv (mkin (reads (rp_log s)) false ErrEOF) = (out, e)
      \/ (forall more eager err, Forall (fun c => c <> []) more -> convert to_csv (mkin (reads (rp_log s) ++ more) eager err) = (out, e))
  end.
Proof.
  intros H. remember (s, ph) as x eqn:E. revert s ph E.
  pattern x. revert H. apply (rtc_ind_r (R := tstep to_csv f)).
  - intros s ph E. injection E as <- <-. split; [apply rtc_refl|exact I].
  - intros y z _ St IH s ph ->. inversion St; subst.
    + destruct (IH _ _ eq_refl) as (R & _). split; [|exact I]. eapply rtc_r; [exact R|assumption].
    + destruct (IH _ _ eq_refl) as (R & _). split; [exact R|]. left. split; assumption.
    + destruct (IH _ _ eq_refl) as (R & _). split; [exact R|]. right. assumption.
Qed.
Lemma treach_open f s : treach to_csv f (s, TReading) -> rp_open s = true.
Proof.
  intros H. remember (s, TReading) as x eqn:E. revert s E.
  pattern x. revert H. apply (rtc_ind_r (R := tstep to_csv f)).
  - intros s E. injection E as <-. reflexivity.
  - intros y z _ St IH s ->. inversion St; subst. assumption.
Qed.
(** Whatever is still to come, the result for the whole file. *)
Lemma compressed_result f s out e ss o : treach to_csv f (s, TDone out e) -> Forall short (lines (content f)) ->
  says (content f) ss -> to_csv ss = (o, true) -> out = o /\ e = Exit0.
Proof.
  intros H Sh Y T.
  assert (C : forall i, solid i -> contents i = content f -> convert to_csv i = (o, Exit0)).
  { intros i S0 E. apply convert_ok; rewrite ?E; [exact S0|exact Sh|]. exists ss. split; assumption. }
  apply treach_inv in H as (R & [(He & E)|D]).
  - destruct (C50_eof_means_all f s R He) as (A & B). rewrite (C (mkin (reads (rp_log s)) false ErrEOF)) in E; [by injection E as -> ->| |exact A].
    exact (reads_nonempty f s R).
  - destruct (C50_reads_prefix f s R) as (r & Er).
    assert (K : exists more, Forall (fun c => c <> []) more /\ concat more = r).
    { destruct r as [|x r]; [exists []; split; [constructor|reflexivity]|]. exists [x :: r]. split; [repeat constructor; discriminate|]. cbn. by rewrite app_nil_r. }
    destruct K as (more & Hm & Hc). specialize (D more false ErrEOF Hm). rewrite C in D; [by injection D as -> ->| |].
    + apply Forall_app. split; [exact (reads_nonempty f s R)|exact Hm].
    + unfold contents. cbn [in_chunks]. rewrite concat_app, Hc, Er. reflexivity.
Qed.
(** While the zstd process does not fail, the end of the stream can be reached. *)
Lemma compressed_ends f s : intact f = true -> treach to_csv f (s, TReading) -> rp_proc s <> PExited false -> rp_proc s <> PDead ->
  exists s' out e, rtc (tstep to_csv f) (s, TReading) (s', TDone out e).
Proof.
  intros Hi Hr P1 P2. pose proof (treach_open f s Hr) as Ho. apply treach_inv in Hr as (R & _).
  destruct (C50_all_is_read f s Hi R Ho P1 P2) as (bound & B).
  assert (G : forall d n s', rruns f n s s' -> bound - n < d -> rtc (tstep to_csv f) (s, TReading) (s', TReading) -> rp_proc s' <> PExited false -> rp_proc s' <> PDead ->
    exists s'', rtc (tstep to_csv f) (s, TReading) (s'', TReading) /\ REof ∈ rp_log s'' /\ rp_proc s'' <> PDead).
  { induction d as [|d IH]; intros n s' Hn Hd Hs Q1 Q2; [lia|]. destruct (B n s' Hn) as (Hb & [E|(s'' & Gd)]); [by exists s'|].
    assert (Hn' : rruns f (S n) s s'') by (by econstructor). destruct (B _ _ Hn') as (Hb' & _).
    apply (IH (S n) s'' Hn'); [lia| | |].
    - eapply rtc_r; [exact Hs|]. destruct Gd as (St & O & _). by constructor.
    - apply Gd.
    - destruct Gd as ([y U|y U] & _); destruct U; cbn [rp_proc]; congruence. }
  destruct (G (S bound) 0 s ltac:(constructor) ltac:(lia) ltac:(apply rtc_refl) P1 P2) as (s'' & Hs & He & Hp).
  destruct (convert to_csv (mkin (reads (rp_log s'')) false ErrEOF)) as [out e] eqn:E.
  exists s'', out, e. eapply rtc_r; [exact Hs|]. by constructor.
Qed.
Lemma compressed_ok f s out : treach to_csv f (s, TDone out Exit0) -> Forall short (lines (content f)) ->
  intact f = true /\ exists ss, says (content f) ss /\ to_csv ss = (out, true).
Proof.
  intros H Sh. apply treach_inv in H as (R & [(He & E)|D]).
  - destruct (C50_eof_means_all f s R He) as (A & B). split; [exact B|].
    assert (C : contents (mkin (reads (rp_log s)) false ErrEOF) = content f) by exact A.
    rewrite <- C in Sh |- *. apply convert_ok in E; [exact E| |exact Sh]. exact (reads_nonempty f s R).
  - exfalso. specialize (D [[x0a; x21; x0a]] false ErrEOF ltac:(repeat constructor; discriminate)).
    destruct (C50_reads_prefix f s R) as (r & Er). rewrite Er in Sh. apply short_prefix in Sh.
    set (i := mkin (reads (rp_log s) ++ [[x0a; x21; x0a]]) false ErrEOF) in *.
    assert (Ci : contents i = P_ZstdReader.received (rp_log s) ++ x0a :: [x21; x0a]).
    { unfold contents, i, P_ZstdReader.received. cbn [in_chunks]. rewrite concat_app. cbn. reflexivity. }
    assert (Li : lines (contents i) = lines_from [] (P_ZstdReader.received (rp_log s) ++ [x0a]) ++ [([x21], true)]).
    { rewrite Ci. unfold lines. rewrite lines_from_app. reflexivity. }
    apply convert_ok in D.
    + destruct D as (ss & F & _). unfold says in F. rewrite Li in F. apply Forall2_app_inv_l in F as (s1 & s2 & _ & F & _).
      inversion F as [|? ? ? ? (q & Q & _)]; subst. vm_compute in Q. discriminate Q.
    + unfold solid, i. cbn [in_chunks]. apply Forall_app. split; [exact (reads_nonempty f s R)|repeat constructor; discriminate].
    + rewrite Li. apply Forall_app. split; [|repeat constructor]. apply short_ended; [exact Sh|]. unfold short. cbn. lia.
Qed.
End Convert.
