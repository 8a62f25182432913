(** Facts about the readers. *)
From Coq Require Import List NArith ZArith Bool Arith Lia.
From Coq Require Import ZifyBool ZifyNat ZifyN.
From Verif Require Import GoBase GoBaseFacts Netlink NetlinkFacts RecordFacts Reader SpecReader Snapshot SpecSnapshot.
Import ListNotations.
Local Open Scope list_scope.

(** Lines. *)

Lemma lines_from_cut b cur : lines_from cur b =
  match cut_newline b with
  | Some (l, r) => (cur ++ l, true) :: lines r
  | None => match cur ++ b with [] => [] | l => [(l, false)] end
  end.
Proof.
  revert cur. induction b as [|x b IH]; intros cur; cbn [lines_from cut_newline].
  - rewrite app_nil_r. destruct cur; reflexivity.
  - unfold newline. destruct (Byte.eqb x x0a) eqn:E.
    + rewrite app_nil_r. reflexivity.
    + rewrite IH. destruct (cut_newline b) as [[l r]|].
      * rewrite <- app_assoc. reflexivity.
      * rewrite <- app_assoc. reflexivity.
Qed.

Lemma lines_cut b : lines b =
  match cut_newline b with
  | Some (l, r) => (l, true) :: lines r
  | None => match b with [] => [] | _ => [(b, false)] end
  end.
Proof. unfold lines at 1. rewrite lines_from_cut. destruct (cut_newline b) as [[]|]; [reflexivity|destruct b; reflexivity]. Qed.

Lemma lines_nonempty b : b <> [] -> lines b <> [].
Proof.
  intros H. rewrite lines_cut. destruct (cut_newline b) as [[]|]; [discriminate|]. destruct b; [contradiction|discriminate].
Qed.

Lemma cut_some b l r : cut_newline b = Some (l, r) -> b = l ++ newline :: r.
Proof.
  revert l. induction b as [|x b IH]; intros l; cbn [cut_newline]; [discriminate|].
  destruct (Byte.eqb x newline) eqn:E.
  - intros H. injection H as <- <-. apply byte_eqb_eq in E. subst x. reflexivity.
  - destruct (cut_newline b) as [[l' r']|]; [|discriminate]. intros H. injection H as <- <-.
    cbn [app]. f_equal. apply IH. reflexivity.
Qed.

Lemma cut_app_some a b l r : cut_newline a = Some (l, r) -> cut_newline (a ++ b) = Some (l, r ++ b).
Proof.
  revert l. induction a as [|x a IH]; intros l; cbn [cut_newline app]; [discriminate|].
  destruct (Byte.eqb x newline) eqn:E.
  - intros H. injection H as <- <-. reflexivity.
  - destruct (cut_newline a) as [[l' r']|]; [|discriminate]. intros H. injection H as <- <-.
    rewrite (IH l' eq_refl). reflexivity.
Qed.

Lemma cut_app_none a b : cut_newline a = None ->
  cut_newline (a ++ b) = match cut_newline b with Some (l, r) => Some (a ++ l, r) | None => None end.
Proof.
  induction a as [|x a IH]; cbn [cut_newline app].
  - intros _. destruct (cut_newline b) as [[]|]; reflexivity.
  - destruct (Byte.eqb x newline) eqn:E; [discriminate|].
    destruct (cut_newline a) as [[]|]; [discriminate|]. intros _. rewrite (IH eq_refl).
    destruct (cut_newline b) as [[]|]; reflexivity.
Qed.

Lemma drop_cr_spec l : drop_cr l = without_cr l.
Proof.
  unfold drop_cr, without_cr, rev'. rewrite <- rev_alt. destruct l as [|a l] using rev_ind; [reflexivity|].
  rewrite rev_app_distr. cbn [rev app]. rewrite last_last, removelast_last.
  destruct a; try reflexivity. rewrite <- rev_alt. apply rev_involutive.
Qed.

(** Reading. *)

Lemma read_solid k i b e i' : solid i -> (0 < k)%N -> read k i = (b, e, i') ->
  in_eager i' = in_eager i /\ in_err i' = in_err i /\ solid i' /\ contents i = b ++ contents i' /\
  (N.of_nat (length b) <= k)%N /\
  ((in_chunks i = [] /\ b = [] /\ e = Some (in_err i)) \/
   (b <> [] /\ (e = Some (in_err i) <-> in_eager i = true /\ in_chunks i' = []) /\ (e = None \/ e = Some (in_err i)))).
Proof.
  unfold solid, contents, read. destruct i as [cs eg er]. cbn [in_chunks in_eager in_err].
  intros S K H. destruct cs as [|c cs].
  - injection H as <- <- <-. cbn [in_chunks in_eager in_err].
    repeat split; try constructor; [cbn [length]; lia|]. repeat split.
  - inversion S as [|? ? Hc Hcs]; subst. destruct (N.leb_spec (N.of_nat (length c)) k) as [L|L].
    + injection H as <- <- <-. cbn [in_chunks in_eager in_err].
      split; [reflexivity|]. split; [reflexivity|]. split; [exact Hcs|]. split; [reflexivity|]. split; [exact L|].
      right. split; [exact Hc|]. destruct eg, cs; cbn [andb]; (split; [|auto]); split; intros Q; try discriminate Q;
        try (destruct Q; discriminate); try (split; reflexivity); reflexivity.
    + injection H as <- <- <-. cbn [in_chunks in_eager in_err].
      split; [reflexivity|]. split; [reflexivity|]. split.
      { constructor; [|exact Hcs]. intros Q. apply (f_equal (@length byte)) in Q. rewrite skipn_length in Q.
        cbn [length] in Q. lia. }
      split. { cbn [concat]. rewrite app_assoc, firstn_skipn. reflexivity. }
      split. { rewrite firstn_length. lia. }
      right. split.
      { intros Q. apply (f_equal (@length byte)) in Q. rewrite firstn_length in Q. cbn [length] in Q. lia. }
      split; [|left; reflexivity]. split; [discriminate|]. intros [_ Q]. discriminate Q.
Qed.

Lemma read_some_eq n k i : (forall i', read k i <> ([], None, i')) -> read_some n k i = read k i.
Proof.
  intros H. destruct n; cbn [read_some]; destruct (read k i) as [[[|b bs] [e|]] i'] eqn:E; try reflexivity;
    exfalso; exact (H _ eq_refl).
Qed.

(** What is still to be read by a scanner. *)
Definition rest (s : scanner) : bytes := sc_data s ++ contents (sc_in s).

Record good (s : scanner) : Prop := {
  g_solid : solid (sc_in s);
  g_room : (sc_start s + N.of_nat (length (sc_data s)) <= sc_len s)%N;
  g_len : (sc_len s <= 65536)%N;
  g_err : sc_err s <> None -> in_chunks (sc_in s) = [] /\
          (in_eager (sc_in s) = false -> (N.of_nat (length (sc_data s)) < 65536)%N);
  g_eager : in_eager (sc_in s) = true -> in_chunks (sc_in s) = [] -> sc_data s <> [] -> sc_err s <> None;
  g_final : sc_err s = None \/ sc_err s = Some (in_err (sc_in s)) }.

Lemma good_new i : solid i -> good (new_scanner i).
Proof.
  intros S. unfold new_scanner. constructor; cbn; try exact S; try lia.
  - intros H. contradiction H. reflexivity.
  - intros _ _ H. contradiction H. reflexivity.
  - left. reflexivity.
Qed.

Lemma contents_nil i : solid i -> contents i = [] -> in_chunks i = [].
Proof.
  unfold solid, contents. destruct (in_chunks i) as [|c cs]; [reflexivity|].
  intros S H. inversion S; subst. cbn [concat] in H. apply app_eq_nil in H. destruct H. contradiction.
Qed.

Lemma scan_go_spec fuel s : good s ->
  (sc_err s = None -> length (contents (sc_in s)) < fuel) ->
  match lines (rest s) with
  | [] => exists s', scan_go fuel s = (Ret None, s') /\ sc_err s' = Some (in_err (sc_in s))
  | l :: ls =>
      if fits (in_eager (sc_in s)) l then
        exists s', scan_go fuel s = (Ret (Some (without_cr (fst l))), s') /\ good s' /\ lines (rest s') = ls /\
          in_eager (sc_in s') = in_eager (sc_in s) /\ in_err (sc_in s') = in_err (sc_in s) /\ length (rest s') < length (rest s) /\
          rest s = fst l ++ (if snd l then [newline] else []) ++ rest s'
      else exists s', scan_go fuel s = (Ret None, s') /\ sc_err s' = Some ErrIO
  end.
Proof.
  revert s. induction fuel as [|fuel IH]; intros s G F;
  assert (LC : lines (rest s) = match cut_newline (sc_data s ++ contents (sc_in s)) with
    | Some (l, r) => (l, true) :: lines r
    | None => match sc_data s ++ contents (sc_in s) with [] => [] | _ => [(sc_data s ++ contents (sc_in s), false)] end
    end) by exact (lines_cut (rest s));
  (destruct (cut_newline (sc_data s)) as [[l r]|] eqn:C;
  [ (* a whole line is in the buffer *)
    rewrite (cut_app_some _ _ _ _ C) in LC; rewrite LC;
    assert (FL : fits (in_eager (sc_in s)) (l, true) = true) by
      (unfold fits; cbn [fst snd]; apply orb_true_iff; left; apply N.ltb_lt;
       pose proof (cut_some _ _ _ C) as E; apply (f_equal (@length byte)) in E; rewrite app_length in E; cbn [length] in E;
       pose proof (g_room _ G); pose proof (g_len _ G); lia);
    rewrite FL; cbn [fst];
    assert (ND : exists b d, sc_data s = b :: d) by
      (destruct (sc_data s) as [|b d]; [discriminate C|eexists _, _; reflexivity]);
    pose proof (cut_some _ _ _ C) as CS;
    exists (mksc (sc_len s) (sc_start s + N.of_nat (length (sc_data s)) - N.of_nat (length r)) r (sc_err s) (sc_in s));
    cbn [scan_go]; split;
    [ destruct ND as (b0 & d0 & ND); rewrite ND in *; cbn [orb]; unfold scan_lines; rewrite C, drop_cr_spec; reflexivity
    | rewrite ?app_length; cbn [sc_in sc_data sc_err];
      split; [|split; [reflexivity|split; [reflexivity|split; [reflexivity|split;
        [unfold rest; cbn [sc_data sc_in]; rewrite !app_length; rewrite CS, app_length; cbn [length]; lia
        |unfold rest; cbn [sc_data sc_in fst snd]; rewrite CS, <- !app_assoc; reflexivity]]]]];
      destruct G as [G1 G2 G3 G4 G5 G6]; constructor; cbn [sc_in sc_data sc_err sc_start sc_len];
      [ exact G1
      | rewrite CS, app_length; cbn [length]; rewrite CS, app_length in G2; cbn [length] in G2; lia
      | exact G3
      | intros E; destruct (G4 E) as [G4a G4b]; split; [exact G4a|]; intros Q; apply G4b in Q;
        rewrite CS, app_length in Q; cbn [length] in Q; lia
      | intros E1 E2 E3; apply (G5 E1 E2); destruct ND as (b0 & d0 & ND); rewrite ND; discriminate
      | exact G6 ] ]
  | rewrite (cut_app_none _ _ C) in LC ]).
  - (* no fuel, no newline in the buffer *)
    destruct (sc_err s) as [e|] eqn:Er; [|exfalso; specialize (F eq_refl); lia].
    destruct (g_err _ G) as [G1 G2]; [rewrite Er; discriminate|].
    assert (Z : contents (sc_in s) = []) by (unfold contents; rewrite G1; reflexivity).
    rewrite Z in LC. cbn [cut_newline] in LC. rewrite app_nil_r in LC. rewrite LC.
    destruct (sc_data s) as [|b0 d0] eqn:D.
    + eexists. cbn [scan_go]. rewrite D, Er. split; [reflexivity|]. cbn [sc_err]. destruct (g_final _ G) as [Q|Q]; congruence.
    + assert (FL : fits (in_eager (sc_in s)) (b0 :: d0, false) = true).
      { unfold fits. cbn [fst snd negb]. rewrite andb_true_r. apply orb_true_iff.
        pose proof (g_room _ G) as R1. pose proof (g_len _ G) as R2. rewrite D in R1.
        destruct (in_eager (sc_in s)); [|left; apply N.ltb_lt, G2; reflexivity].
        cbn [andb]. rewrite N.ltb_lt, N.eqb_eq. lia. }
      rewrite FL. cbn [fst snd]. eexists. cbn [scan_go]. rewrite D, Er. cbn [orb]. unfold scan_lines. rewrite C, drop_cr_spec.
      split; [reflexivity|]. unfold rest. cbn [sc_in sc_data sc_err]. rewrite Z, D, !app_nil_r.
      split; [|split; [reflexivity|split; [reflexivity|split; [reflexivity|split; [cbn [length]; lia|reflexivity]]]]].
      destruct G as [G1' G2' G3' G4' G5' G6']; constructor; cbn [sc_in sc_data sc_err sc_start sc_len length]; auto.
      * rewrite D in G2'. cbn [length] in G2'. lia.
      * intros _. split; [exact G1|]. intros _. lia.
      * rewrite <- Er. exact G6'.
  - destruct (sc_err s) as [e|] eqn:Er.
    + (* at the end of the input *)
      destruct (g_err _ G) as [G1 G2]; [rewrite Er; discriminate|].
      assert (Z : contents (sc_in s) = []) by (unfold contents; rewrite G1; reflexivity).
    rewrite Z in LC. cbn [cut_newline] in LC. rewrite app_nil_r in LC. rewrite LC.
      destruct (sc_data s) as [|b0 d0] eqn:D.
      * eexists. cbn [scan_go]. rewrite D, Er. split; [reflexivity|]. cbn [sc_err]. destruct (g_final _ G) as [Q|Q]; congruence.
      * assert (FL : fits (in_eager (sc_in s)) (b0 :: d0, false) = true).
        { unfold fits. cbn [fst snd negb]. rewrite andb_true_r. apply orb_true_iff.
          pose proof (g_room _ G) as R1. pose proof (g_len _ G) as R2. rewrite D in R1.
          destruct (in_eager (sc_in s)); [|left; apply N.ltb_lt, G2; reflexivity].
          cbn [andb]. rewrite N.ltb_lt, N.eqb_eq. lia. }
        rewrite FL. cbn [fst snd]. eexists. cbn [scan_go]. rewrite D, Er. cbn [orb]. unfold scan_lines. rewrite C, drop_cr_spec.
        split; [reflexivity|]. unfold rest. cbn [sc_in sc_data sc_err]. rewrite Z, D, !app_nil_r.
        split; [|split; [reflexivity|split; [reflexivity|split; [reflexivity|split; [cbn [length]; lia|reflexivity]]]]].
        destruct G as [G1' G2' G3' G4' G5' G6']; constructor; cbn [sc_in sc_data sc_err sc_start sc_len length]; auto.
        -- rewrite D in G2'. cbn [length] in G2'. lia.
        -- intros _. split; [exact G1|]. intros _. lia.
        -- rewrite <- Er. exact G6'.
    + (* reading more *)
      specialize (F eq_refl).
      assert (SL : (if (match sc_data s with [] => false | _ => true end) || false then scan_lines (sc_data s) false else None) = None).
      { unfold scan_lines. rewrite C. destruct (sc_data s); reflexivity. }
      cbn [scan_go]. rewrite Er, SL.
      set (size := N.of_nat (length (sc_data s))) in *.
      set (full := (sc_start s + size =? sc_len s)%N).
      set (start1 := if (0 <? sc_start s)%N && (full || (sc_len s / 2 <? sc_start s)%N) then 0%N else sc_start s).
      pose proof (g_room _ G) as R1. pose proof (g_len _ G) as R2. fold size in R1.
      assert (S1 : (start1 <= sc_start s)%N) by (unfold start1; destruct (_ && _); lia).
      destruct ((start1 + size =? sc_len s)%N && (65536 <=? sc_len s)%N) eqn:TL.
      { (* too long *)
        apply andb_true_iff in TL. destruct TL as [T1 T2]. apply N.eqb_eq in T1. apply N.leb_le in T2.
        assert (T3 : start1 = 0%N).
        { unfold start1. destruct (0 <? sc_start s)%N eqn:Z; [|apply N.ltb_ge in Z; destruct (_ && _); lia].
          cbn [andb]. unfold full. replace (sc_start s + size =? sc_len s)%N with true; [reflexivity|].
          symmetry. apply N.eqb_eq. lia. }
        assert (Sz : size = 65536%N) by lia.
        rewrite LC.
        destruct (cut_newline (contents (sc_in s))) as [[l r]|] eqn:CC.
        - match goal with |- context [fits ?a ?b] => assert (FF : fits a b = false); [|rewrite FF; eexists; split; reflexivity] end.
          unfold fits. cbn [fst snd negb]. rewrite andb_false_r, orb_false_r. apply N.ltb_ge.
          rewrite app_length. lia.
        - destruct (sc_data s ++ contents (sc_in s)) as [|b0 d0] eqn:QQ; [apply app_eq_nil in QQ; destruct QQ as [QQ _]; unfold size in Sz; rewrite QQ in Sz; cbn [length] in Sz; lia|].
          rewrite <- QQ.
          match goal with |- context [fits ?a ?b] => assert (FF : fits a b = false); [|rewrite FF; eexists; split; reflexivity] end.
          unfold fits. cbn [fst snd negb]. rewrite andb_true_r. apply orb_false_iff. rewrite app_length. split.
          + apply N.ltb_ge. lia.
          + destruct (in_eager (sc_in s)) eqn:Eg; [|reflexivity]. cbn [andb]. apply N.eqb_neq. intros Q.
            assert (Z : contents (sc_in s) = []) by (destruct (contents (sc_in s)); [reflexivity|cbn [length] in Q; lia]).
            apply contents_nil in Z; [|exact (g_solid _ G)].
            apply (g_eager _ G Eg Z); [|exact Er]. intros Z'. unfold size in Sz. rewrite Z' in Sz. cbn [length] in Sz. lia. }
      set (grow := (start1 + size =? sc_len s)%N) in *.
      set (len2 := if grow then (if (sc_len s =? 0)%N then 4096%N else N.min (sc_len s * 2) 65536) else sc_len s).
      set (start2 := if grow then 0%N else start1).
      assert (K : (0 < len2 - (start2 + size))%N /\ (len2 <= 65536)%N).
      { unfold len2, start2. destruct grow eqn:Gr; unfold grow in Gr.
        - apply N.eqb_eq in Gr. cbn [andb] in TL. apply N.leb_gt in TL.
          destruct (N.eqb_spec (sc_len s) 0); lia.
        - apply N.eqb_neq in Gr. lia. }
      destruct K as [K1 K2]. clearbody len2 start2.
      destruct (read (len2 - (start2 + size)) (sc_in s)) as [[b e] i'] eqn:RD.
      destruct (read_solid _ _ _ _ _ (g_solid _ G) K1 RD) as (A1 & A2 & A3 & A4 & A5 & A6).
      rewrite read_some_eq.
      2:{ intros i2 Q. rewrite RD in Q. assert (b = [] /\ e = None) as [Q1 Q2] by (injection Q; auto).
          destruct A6 as [(_ & _ & Q3)|(Q3 & _)]; [congruence|contradiction]. }
      rewrite RD.
      assert (G' : good (mksc len2 start2 (sc_data s ++ b) e i')).
      { constructor; cbn [sc_in sc_data sc_err sc_start sc_len].
        - exact A3.
        - rewrite app_length. fold size. lia.
        - exact K2.
        - intros E. rewrite A1. destruct A6 as [(Q1 & Q2 & Q3)|(Q1 & Q2 & Q3)].
          + split.
            * apply contents_nil; [exact A3|]. unfold contents in A4 at 1. rewrite Q1 in A4. rewrite Q2 in A4. symmetry. exact A4.
            * intros _. rewrite Q2, app_nil_r. fold size. lia.
          + destruct Q3 as [Q3|Q3]; [contradiction|]. apply Q2 in Q3. destruct Q3 as [Q3 Q4].
            split; [exact Q4|]. rewrite Q3. discriminate.
        - intros E1 E2 _. rewrite A1 in E1. destruct A6 as [(Q1 & Q2 & Q3)|(Q1 & Q2 & Q3)].
          + rewrite Q3. discriminate.
          + rewrite (proj2 Q2 (conj E1 E2)). discriminate.
        - rewrite A2. destruct A6 as [(_ & _ & Q)|(_ & _ & Q)]; [right; exact Q|exact Q]. }
      assert (F' : e = None -> length (contents i') < fuel).
      { intros E. destruct A6 as [(Q1 & Q2 & Q3)|(Q1 & _)]; [congruence|].
        rewrite A4, app_length in F. destruct b; [contradiction Q1; reflexivity|]. cbn [length] in F. lia. }
      specialize (IH _ G' F'). cbn [sc_in] in IH. rewrite A1, A2 in IH.
      assert (RS : rest (mksc len2 start2 (sc_data s ++ b) e i') = rest s).
      { unfold rest. cbn [sc_data sc_in]. rewrite A4, app_assoc. reflexivity. }
      rewrite RS in IH. exact IH.
Qed.

Lemma scan_spec s : good s ->
  match lines (rest s) with
  | [] => exists s', scan s = (Ret None, s') /\ sc_err s' = Some (in_err (sc_in s))
  | l :: ls =>
      if fits (in_eager (sc_in s)) l then
        exists s', scan s = (Ret (Some (without_cr (fst l))), s') /\ good s' /\ lines (rest s') = ls /\
          in_eager (sc_in s') = in_eager (sc_in s) /\ in_err (sc_in s') = in_err (sc_in s) /\ length (rest s') < length (rest s) /\
          rest s = fst l ++ (if snd l then [newline] else []) ++ rest s'
      else exists s', scan s = (Ret None, s') /\ sc_err s' = Some ErrIO
  end.
Proof. intros G. apply scan_go_spec; [exact G|]. intros _. unfold scan_fuel, contents. lia. Qed.

(** The archive reader. *)
Section Archive.
  Variable unmarshal : bytes -> outcome archival.
  Hypothesis unmarshal_total : forall l, (exists r, unmarshal l = Ret r) \/ (exists e, unmarshal l = Fail e /\ e <> ErrEOF).

  Local Notation line_record := (line_record unmarshal).

  Lemma load_archive_spec fuel s acc : good s -> length (rest s) < fuel ->
    load_archive_go unmarshal fuel s acc =
    let (rs, e) := records_of unmarshal (in_eager (sc_in s)) (lines (rest s)) in Ret (acc ++ rs, e).
  Proof.
    revert s acc. induction fuel as [|fuel IH]; intros s acc G L; [lia|].
    pose proof (scan_spec s G) as SP. cbn [load_archive_go]. unfold archive_next.
    destruct (lines (rest s)) as [|l ls].
    - destruct SP as (s' & -> & _). cbn [records_of]. rewrite app_nil_r. reflexivity.
    - cbn [records_of]. destruct (fits (in_eager (sc_in s)) l).
      + destruct SP as (s' & -> & G' & LS & E & _ & LT & _).
        destruct (unmarshal_total (without_cr (fst l))) as [(r & ->)|(e & -> & N)].
        * rewrite (IH s') by (exact G' || lia). rewrite LS, E.
          destruct (records_of unmarshal (in_eager (sc_in s)) ls) as [rs e]. rewrite <- app_assoc. reflexivity.
        * destruct e; rewrite ?app_nil_r; try reflexivity. contradiction N; reflexivity.
      + destruct SP as (s' & -> & _). rewrite app_nil_r. reflexivity.
  Qed.

  Lemma load_archive i : solid i ->
    load_all_archival_records unmarshal i = Ret (records_of unmarshal (in_eager i) (lines (contents i))).
  Proof.
    intros S. unfold load_all_archival_records. rewrite load_archive_spec.
    - unfold rest, new_scanner. cbn [sc_in sc_data app]. destruct (records_of _ _ _) as [rs e]. reflexivity.
    - apply good_new, S.
    - unfold rest, new_scanner, contents. cbn [sc_in sc_data app]. lia.
  Qed.

  Lemma short_fits eager l : short l -> fits eager l = true.
  Proof. unfold short, fits. intros H. apply orb_true_iff. left. apply N.ltb_lt, H. Qed.

  Lemma all_decode eager ls rs : Forall short ls ->
    (records_of unmarshal eager ls = (rs, None) <-> Forall2 (fun l r => line_record l = Ret r) ls rs).
  Proof.
    intros S. revert rs. induction S as [|l ls Hl _ IH]; intros rs; cbn [records_of].
    - split.
      + intros H. injection H as <-. constructor.
      + intros H. inversion H. reflexivity.
    - rewrite (short_fits _ _ Hl). change (unmarshal (without_cr (fst l))) with (line_record l).
      destruct (unmarshal_total (without_cr (fst l))) as [(r & E)|(e & E & N)]; change (unmarshal (without_cr (fst l))) with (line_record l) in E; rewrite E.
      + destruct (records_of unmarshal eager ls) as [rs' e'] eqn:R. split.
        * intros H. injection H as <- ->. constructor; [exact E|]. apply IH. reflexivity.
        * intros H. inversion H as [|? r' ? rs'' H1 H2]; subst. apply IH in H2. injection H2 as -> ->.
          rewrite E in H1. injection H1 as ->. reflexivity.
      + split; [discriminate|]. intros H. inversion H; subst. congruence.
  Qed.

  Lemma some_fail eager ls rs e : Forall short ls ->
    (records_of unmarshal eager ls = (rs, Some e) <->
     exists ls1 l ls2, ls = ls1 ++ l :: ls2 /\ Forall2 (fun l r => line_record l = Ret r) ls1 rs /\ line_record l = Fail e).
  Proof.
    intros S. revert rs. induction S as [|l ls Hl _ IH]; intros rs; cbn [records_of].
    - split; [discriminate|]. intros (ls1 & l & ls2 & H & _). destruct ls1; discriminate H.
    - rewrite (short_fits _ _ Hl). change (unmarshal (without_cr (fst l))) with (line_record l).
      destruct (unmarshal_total (without_cr (fst l))) as [(r & E)|(e' & E & N)]; change (unmarshal (without_cr (fst l))) with (line_record l) in E; rewrite E.
      + destruct (records_of unmarshal eager ls) as [rs' e'] eqn:R. split.
        * intros H. injection H as <- ->. destruct (proj1 (IH rs') eq_refl) as (ls1 & l' & ls2 & -> & H1 & H2).
          exists (l :: ls1), l', ls2. split; [reflexivity|]. split; [constructor; assumption|exact H2].
        * intros (ls1 & l' & ls2 & H & H1 & H2). destruct ls1 as [|l1 ls1]; injection H as <- H; [congruence|].
          inversion H1 as [|? r' ? rs'' H3 H4]; subst.
          assert (Q : (rs', e') = (rs'', Some e)).
          { apply IH. exists ls1, l', ls2. split; [reflexivity|split; assumption]. }
          injection Q as -> ->. rewrite E in H3. injection H3 as ->. reflexivity.
      + split.
        * intros H. injection H as <- <-. exists [], l, ls. split; [reflexivity|split; [constructor|exact E]].
        * intros (ls1 & l' & ls2 & H & H1 & H2). destruct ls1 as [|l1 ls1]; injection H as <- H.
          -- inversion H1; subst. rewrite E in H2. injection H2 as ->. reflexivity.
          -- inversion H1; subst. congruence.
  Qed.

  Lemma truncated eager ls1 l ls2 rs : Forall short ls1 -> fits eager l = false ->
    Forall2 (fun l r => line_record l = Ret r) ls1 rs ->
    records_of unmarshal eager (ls1 ++ l :: ls2) = (rs, None).
  Proof.
    intros S NF H. induction H as [|l1 r ls1 rs H1 H2 IH]; cbn [app records_of].
    - rewrite NF. reflexivity.
    - inversion S; subst. rewrite (short_fits _ _ ltac:(eassumption)). change (unmarshal (without_cr (fst l1))) with (line_record l1). rewrite H1, IH by assumption. reflexivity.
  Qed.

  (** As a source of records for LoadAll in package snapshot. *)
  Lemma archive_yields s : good s -> Forall (fun l => fits (in_eager (sc_in s)) l = true) (lines (rest s)) ->
    forall rs, Forall2 (fun l r => line_record l = Ret r) (lines (rest s)) rs ->
    yields (archive_next unmarshal) s rs ErrEOF.
  Proof.
    intros G FT rs H. remember (lines (rest s)) as ls eqn:E. revert s G E FT.
    induction H as [|l r ls rs H1 H2 IH]; intros s G E FT; pose proof (scan_spec s G) as SP; rewrite <- E in SP.
    - destruct SP as (s' & Hs & _). apply yields_end with (s' := s'). unfold archive_next. rewrite Hs. reflexivity.
    - inversion FT as [|? ? F1 F2]; subst. rewrite F1 in SP. destruct SP as (s' & Hs & G' & LS & Eg & _).
      apply yields_more with (s' := s').
      + unfold archive_next. rewrite Hs. change (unmarshal (without_cr (fst l))) with (line_record l). rewrite H1. reflexivity.
      + apply IH; [exact G'|symmetry; exact LS|rewrite Eg; exact F2].
  Qed.
End Archive.

(** Full reads. *)

Lemma read_full_go_spec fuel k acc i : solid i -> (length (in_chunks i) < fuel) ->
  let c := contents i in
  (if (N.of_nat (length c) <? k)%N
   then exists i', read_full_go fuel k acc i =
       (Fail (match acc ++ c, in_err i with _ :: _, ErrEOF => ErrUnexpectedEOF | _, e => e end), i')
   else exists i', read_full_go fuel k acc i = (Ret (acc ++ firstn (N.to_nat k) c), i') /\
       solid i' /\ contents i' = skipn (N.to_nat k) c /\ in_eager i' = in_eager i /\ in_err i' = in_err i).
Proof.
  revert k acc i. induction fuel as [|fuel IH]; intros k acc i S F c; [lia|].
  cbn [read_full_go]. destruct (N.eqb_spec k 0) as [->|K].
  - destruct (N.ltb_spec (N.of_nat (length c)) 0); [lia|]. exists i. cbn [N.to_nat firstn skipn].
    rewrite app_nil_r. repeat split. exact S.
  - destruct (read k i) as [[b e] i'] eqn:R.
    assert (KP : (0 < k)%N) by lia.
    destruct (read_solid _ _ _ _ _ S KP R) as (A1 & A2 & A3 & A4 & A5 & A6).
    fold c in A4.
    assert (CH : e = None -> (N.of_nat (length b) < k)%N -> length (in_chunks i') < length (in_chunks i)).
    { intros -> Lb. unfold read in R. destruct (in_chunks i) as [|c0 cs]; [discriminate R|].
      destruct (N.leb_spec (N.of_nat (length c0)) k).
      - injection R as _ _ <-. cbn [in_chunks length]. lia.
      - injection R as <- _. rewrite firstn_length in Lb. lia. }
    destruct e as [e|].
    + assert (Ee : e = in_err i /\ contents i' = []).
      { destruct A6 as [(Q1 & Q2 & Q3)|(Q1 & Q2 & Q3)].
        - injection Q3 as ->. split; [reflexivity|]. unfold c in A4. unfold contents in A4 at 1. rewrite Q1, Q2 in A4. symmetry. exact A4.
        - destruct Q3 as [Q3|Q3]; [discriminate Q3|]. split; [injection Q3; auto|].
          apply Q2 in Q3. unfold contents. rewrite (proj2 Q3). reflexivity. }
      destruct Ee as [-> Ec]. rewrite Ec, app_nil_r in A4.
      rewrite A4. destruct (N.leb_spec k (N.of_nat (length b))) as [L|L].
      * destruct (N.ltb_spec (N.of_nat (length b)) k); [lia|]. exists i'.
        assert (E : N.to_nat k = length b) by lia. rewrite E, firstn_all, skipn_all.
        split; [reflexivity|]. split; [exact A3|]. split; [exact Ec|]. split; assumption.
      * destruct (N.ltb_spec (N.of_nat (length b)) k); [|lia]. exists i'. destruct (acc ++ b), (in_err i); reflexivity.
    + assert (Lc : length c = length b + length (contents i')) by (rewrite A4, app_length; reflexivity).
      destruct (N.eq_dec (N.of_nat (length b)) k) as [Eb|Nb].
      * assert (E0 : (k - N.of_nat (length b))%N = 0%N) by lia. rewrite E0.
        destruct (N.ltb_spec (N.of_nat (length c)) k); [lia|].
        assert (E : N.to_nat k = length b) by lia. rewrite E, A4, firstn_app, firstn_all, Nat.sub_diag, firstn_O, app_nil_r.
        rewrite skipn_app, skipn_all, Nat.sub_diag. cbn [app skipn].
        exists i'. split; [destruct fuel; reflexivity|]. split; [exact A3|]. split; [reflexivity|]. split; assumption.
      * assert (Fu : length (in_chunks i') < fuel) by (pose proof (CH eq_refl ltac:(lia)); lia).
        specialize (IH (k - N.of_nat (length b))%N (acc ++ b) i' A3 Fu). cbn zeta in IH.
        destruct (N.ltb_spec (N.of_nat (length (contents i'))) (k - N.of_nat (length b))) as [L|L].
        -- destruct (N.ltb_spec (N.of_nat (length c)) k); [|lia].
           destruct IH as [i2 ->]. exists i2. rewrite <- app_assoc, <- A4, A2. reflexivity.
        -- destruct (N.ltb_spec (N.of_nat (length c)) k); [lia|].
           destruct IH as (i2 & -> & B1 & B2 & B3 & B4). exists i2.
           rewrite <- app_assoc, A4, firstn_app, skipn_app.
           rewrite (firstn_all2 b), (skipn_all2 b) by lia. cbn [app].
           replace (N.to_nat (k - N.of_nat (length b))) with (N.to_nat k - length b) in * by lia.
           split; [reflexivity|]. split; [exact B1|]. split; [exact B2|]. split; congruence.
Qed.

Lemma read_full_enough k i : solid i -> (k <= N.of_nat (length (contents i)))%N ->
  exists i', read_full k i = (Ret (firstn (N.to_nat k) (contents i)), i') /\
    solid i' /\ contents i' = skipn (N.to_nat k) (contents i) /\ in_eager i' = in_eager i /\ in_err i' = in_err i.
Proof.
  intros S L. pose proof (read_full_go_spec (Datatypes.S (length (in_chunks i))) k [] i S ltac:(lia)) as H. cbn zeta in H.
  destruct (N.ltb_spec (N.of_nat (length (contents i))) k); [lia|]. exact H.
Qed.

Lemma read_full_short k i : solid i -> (N.of_nat (length (contents i)) < k)%N ->
  exists i', read_full k i =
    (Fail (match contents i, in_err i with _ :: _, ErrEOF => ErrUnexpectedEOF | _, e => e end), i').
Proof.
  intros S L. pose proof (read_full_go_spec (Datatypes.S (length (in_chunks i))) k [] i S ltac:(lia)) as H. cbn zeta in H.
  destruct (N.ltb_spec (N.of_nat (length (contents i))) k); [|lia]. exact H.
Qed.

(** Raw messages. *)

Definition hdr_bytes (h : nlmsghdr) : bytes :=
  le_enc 4 (h_len h) ++ le_enc 2 (h_type h) ++ le_enc 2 (h_flags h) ++ le_enc 4 (h_seq h) ++ le_enc 4 (h_pid h).

Lemma hdr_bytes_length h : length (hdr_bytes h) = 16.
Proof. unfold hdr_bytes. rewrite !app_length, !le_enc_length. reflexivity. Qed.

Lemma wire_split m : wire m = hdr_bytes (m_header m) ++ vis (m_data m).
Proof. unfold wire, hdr_bytes. rewrite <- !app_assoc. reflexivity. Qed.

Lemma sub_app (a b c : bytes) o n : length a = o -> length b = n -> sub o n (a ++ b ++ c) = b.
Proof.
  intros La Lb. unfold sub. rewrite skipn_app, skipn_all2 by lia. rewrite La, Nat.sub_diag. cbn [app skipn].
  rewrite firstn_app, firstn_all2 by lia. rewrite Lb, Nat.sub_diag, firstn_O, app_nil_r. reflexivity.
Qed.

Lemma load_hdr_bytes m : proper m -> load_hdr (hdr_bytes (m_header m)) = m_header m.
Proof.
  intros (_ & _ & H1 & H2 & H3 & H4 & H5). destruct (m_header m) as [len ty fl sq pid].
  unfold load_hdr, hdr_bytes. cbn [h_len h_type h_flags h_seq h_pid] in *.
  f_equal.
  - change (sub 0 4 ?l) with (sub 0 4 ([] ++ l)). rewrite (sub_app []) by (reflexivity || apply le_enc_length).
    rewrite le_le_enc. apply N.mod_small. exact H1.
  - rewrite (sub_app (le_enc 4 len)) by apply le_enc_length. rewrite le_le_enc. apply N.mod_small. exact H2.
  - rewrite (app_assoc (le_enc 4 len)).
    rewrite (sub_app (le_enc 4 len ++ le_enc 2 ty)) by (rewrite ?app_length, ?le_enc_length; reflexivity).
    rewrite le_le_enc. apply N.mod_small. exact H3.
  - rewrite (app_assoc (le_enc 4 len)), (app_assoc (le_enc 4 len ++ _)).
    rewrite (sub_app ((le_enc 4 len ++ le_enc 2 ty) ++ _)) by (rewrite ?app_length, ?le_enc_length; reflexivity).
    rewrite le_le_enc. apply N.mod_small. exact H4.
  - rewrite (app_assoc (le_enc 4 len)), (app_assoc (le_enc 4 len ++ _)), (app_assoc ((le_enc 4 len ++ _) ++ _)).
    rewrite <- (app_nil_r (le_enc 4 pid)).
    rewrite (sub_app (((le_enc 4 len ++ le_enc 2 ty) ++ _) ++ _)) by (rewrite ?app_length, ?le_enc_length; reflexivity).
    rewrite le_le_enc. apply N.mod_small. exact H5.
Qed.

Lemma data_len m : proper m ->
  ((h_len (m_header m) + 4294967296 - 16) mod 4294967296)%N = N.of_nat (length (vis (m_data m))).
Proof.
  intros (H & _ & H1 & _). rewrite H in *.
  replace (16 + N.of_nat (length (vis (m_data m))) + 4294967296 - 16)%N
    with (N.of_nat (length (vis (m_data m))) + 1 * 4294967296)%N by lia.
  rewrite N.mod_add by discriminate. apply N.mod_small. lia.
Qed.

Lemma load_message i m tail : solid i -> proper m -> contents i = wire m ++ tail ->
  exists i', load_raw_message i = (Ret m, i') /\ solid i' /\ contents i' = tail /\
    in_eager i' = in_eager i /\ in_err i' = in_err i.
Proof.
  intros S P C. rewrite wire_split, <- app_assoc in C. unfold load_raw_message.
  destruct (read_full_enough 16 i S) as (i1 & -> & S1 & C1 & E1 & F1).
  { rewrite C, app_length, hdr_bytes_length. lia. }
  change (N.to_nat 16) with 16 in *.
  rewrite C in *. rewrite firstn_app, firstn_all2 by (rewrite hdr_bytes_length; lia).
  rewrite hdr_bytes_length, Nat.sub_diag, firstn_O, app_nil_r.
  rewrite skipn_app, skipn_all2 in C1 by (rewrite hdr_bytes_length; lia).
  rewrite hdr_bytes_length, Nat.sub_diag in C1. cbn [app skipn] in C1.
  rewrite (load_hdr_bytes m P), (data_len m P).
  destruct (read_full_enough (N.of_nat (length (vis (m_data m)))) i1 S1) as (i2 & -> & S2 & C2 & E2 & F2).
  { rewrite C1, app_length. lia. }
  rewrite Nnat.Nat2N.id, C1 in *. rewrite firstn_app, firstn_all, Nat.sub_diag, firstn_O, app_nil_r.
  rewrite skipn_app, skipn_all, Nat.sub_diag in C2. cbn [app skipn] in C2.
  exists i2. split; [|split; [exact S2|split; [exact C2|split; congruence]]].
  destruct m as [h [v sp]]. destruct P as (_ & Q & _). cbn in Q |- *. subst sp. reflexivity.
Qed.

(** A proper beginning of a message, or nothing. *)
Lemma load_cut i m q : solid i -> proper m -> contents i ++ q = wire m -> q <> [] ->
  exists i', load_raw_message i = (Fail (stop_error (in_err i) (contents i)), i').
Proof.
  intros S P C Q. unfold load_raw_message. rewrite wire_split in C.
  assert (L : length (contents i) + length q = 16 + length (vis (m_data m))).
  { rewrite <- (hdr_bytes_length (m_header m)), <- !app_length, C. reflexivity. }
  assert (Lq : 0 < length q) by (destruct q; [contradiction Q; reflexivity|cbn [length]; lia]).
  destruct (N.lt_ge_cases (N.of_nat (length (contents i))) 16) as [L16|L16].
  - destruct (read_full_short 16 i S L16) as (i1 & ->). exists i1.
    unfold stop_error. destruct (in_err i), (contents i) as [|b l]; try reflexivity.
    destruct (Nat.eqb_spec (length (b :: l)) 16); [lia|]. destruct (Nat.eqb_spec (length (b :: l)) 0); [discriminate|]. reflexivity.
  - destruct (read_full_enough 16 i S L16) as (i1 & -> & S1 & C1 & E1 & F1).
    change (N.to_nat 16) with 16 in *.
    assert (H : firstn 16 (contents i) = hdr_bytes (m_header m)).
    { pose proof (f_equal (firstn 16) C) as C'. rewrite !firstn_app in C'.
      rewrite hdr_bytes_length, Nat.sub_diag in C'. rewrite (firstn_all2 (hdr_bytes _)) in C' by (rewrite hdr_bytes_length; lia).
      replace (16 - length (contents i)) with 0 in C' by lia. rewrite !firstn_O, !app_nil_r in C'. exact C'. }
    rewrite H, (load_hdr_bytes m P), (data_len m P).
    assert (L1 : length (contents i1) = length (contents i) - 16) by (rewrite C1, skipn_length; reflexivity).
    destruct (read_full_short (N.of_nat (length (vis (m_data m)))) i1 S1) as (i2 & ->); [lia|]. exists i2.
    rewrite F1. unfold stop_error.
    destruct (in_err i); try (destruct (contents i1); reflexivity).
    destruct (Nat.eqb_spec (length (contents i)) 0); [lia|]. cbn [orb].
    destruct (contents i1) as [|b l]; cbn [length] in L1.
    + destruct (Nat.eqb_spec (length (contents i)) 16); [reflexivity|lia].
    + destruct (Nat.eqb_spec (length (contents i)) 16); [lia|reflexivity].
Qed.

Lemma load_end i : solid i -> contents i = [] -> exists i', load_raw_message i = (Fail (in_err i), i').
Proof.
  intros S C. unfold load_raw_message. destruct (read_full_short 16 i S) as (i1 & ->).
  { rewrite C. cbn [length]. lia. }
  exists i1. rewrite C. reflexivity.
Qed.

Lemma loads_all i ms p m q : solid i -> Forall proper ms -> contents i = concat (map wire ms) ++ p ->
  p = [] \/ (proper m /\ p ++ q = wire m /\ q <> []) ->
  loads i ms (stop_error (in_err i) p).
Proof.
  intros S PM C HP. revert i S C. induction PM as [|m0 ms P0 _ IH]; intros i S C; cbn [map concat app] in C.
  - destruct HP as [->|(P & Hq & Q)].
    + destruct (load_end i S C) as [i' H]. apply loads_end with (i' := i'). rewrite H.
      unfold stop_error. destruct (in_err i); reflexivity.
    + rewrite <- C in Hq. destruct (load_cut i m q S P Hq Q) as [i' H]. apply loads_end with (i' := i').
      rewrite H, C. reflexivity.
  - rewrite <- app_assoc in C. destruct (load_message i m0 _ S P0 C) as (i' & H & S' & C' & _ & E).
    apply loads_more with (i' := i'); [exact H|]. rewrite <- E. apply IH; assumption.
Qed.


Lemma loads_yields i ms rs e : loads i ms e ->
  Forall2 (fun m r => make_archival_record m None = Ret (Some r)) ms rs -> yields raw_next i rs e.
Proof.
  intros H. revert rs. induction H as [i i' e H|i i' m ms e H _ IH]; intros rs F; inversion F as [|? r ? rs' F1 F2]; subst.
  - apply yields_end with (s' := i'). unfold raw_next. rewrite H. reflexivity.
  - apply yields_more with (s' := i'); [|apply IH, F2]. unfold raw_next. rewrite H, F1. reflexivity.
Qed.

(** The statements of P_Reader. *)
Section Statements.
  Variable u : bytes -> outcome archival.
  Hypothesis H : proper_unmarshal u.

  Lemma load_all_lines i rs : solid i -> Forall short (lines (contents i)) ->
    (load_all_archival_records u i = Ret (rs, None) <->
     Forall2 (fun l r => line_record u l = Ret r) (lines (contents i)) rs).
  Proof.
    intros S F. rewrite (load_archive u H i S), <- (all_decode u H (in_eager i) _ rs F).
    split; [intros E; injection E; auto|intros ->; reflexivity].
  Qed.
  Lemma load_first_error i rs e : solid i -> Forall short (lines (contents i)) ->
    (load_all_archival_records u i = Ret (rs, Some e) <->
     exists ls1 l ls2, lines (contents i) = ls1 ++ l :: ls2 /\
       Forall2 (fun l r => line_record u l = Ret r) ls1 rs /\ line_record u l = Fail e).
  Proof.
    intros S F. rewrite (load_archive u H i S), <- (some_fail u H (in_eager i) _ rs e F).
    split; [intros E; injection E; auto|intros ->; reflexivity].
  Qed.
  Lemma load_truncated i ls1 l ls2 rs : solid i -> lines (contents i) = ls1 ++ l :: ls2 -> Forall short ls1 ->
    fits (in_eager i) l = false -> Forall2 (fun l r => line_record u l = Ret r) ls1 rs ->
    load_all_archival_records u i = Ret (rs, None).
  Proof.
    intros S E F N R. rewrite (load_archive u H i S), E, (truncated u (in_eager i) ls1 l ls2 rs F N R). reflexivity.
  Qed.
  Lemma load_any_error cs eager e1 e2 : Forall (fun c => c <> []) cs ->
    load_all_archival_records u (mkin cs eager e1) = load_all_archival_records u (mkin cs eager e2).
  Proof.
    intros S. rewrite (load_archive u H (mkin cs eager e1) S), (load_archive u H (mkin cs eager e2) S). reflexivity.
  Qed.
End Statements.

Lemma loads_uncut i ms : solid i -> Forall proper ms -> in_err i = ErrEOF ->
  contents i = concat (map wire ms) -> loads i ms ErrEOF.
Proof.
  intros S P E C. change ErrEOF with (stop_error ErrEOF []). rewrite <- E.
  apply (loads_all i ms [] (mkmsg (mkhdr 16 0 0 0 0) (mkslice [] [])) []); auto. rewrite app_nil_r. exact C.
Qed.
