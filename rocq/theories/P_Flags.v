(** C70: how the command line and the environment are read. *)
From Coq Require Import Strings.String List NArith ZArith Bool Lia.
From Verif Require Import GoBase GoBaseFacts JsonFacts ConfigFacts IPTextFacts NetIP Inetdiag Netlink SpecNetlink SpecConfig MainConfig RecordFacts P_Main Flags SpecFlags FlagNumbers FlagFacts FlagMain.
Import ListNotations.
Local Open Scope list_scope.

(** ** The command line *)

(** A command line has one reading. *)
Theorem C70_one_reading : forall lib args occ occ', distinct lib -> command lib args occ -> command lib args occ' -> occ = occ'.
Proof. exact command_once. Qed.
Print Assumptions C70_one_reading.

(** The program goes on iff the command line is a list of flags, all known and with
    values they accept, followed by nothing, by "--" or by a word that is not a flag. *)
Theorem C70_goes_on : forall lib args env, distinct lib ->
  ((exists st, main_flags lib args env = Goes st) <-> exists occ, command lib args occ).
Proof.
  intros lib args env D. split.
  - intros (st & H). destruct (main_goes lib D args env st H) as (occ & C & _). exists occ. exact C.
  - intros (occ & C). destruct (main_command lib D args env occ C) as (st & H & _). exists st. exact H.
Qed.
Print Assumptions C70_goes_on.

(** Otherwise it exits: with status 0 iff the flags before -h or -help are in
    order, and with status 2 in all other cases. *)
Theorem C70_status : forall lib args env, distinct lib ->
  (main_flags lib args env = Exits 0 <-> asks_help lib args) /\
  (main_flags lib args env = Exits 2 <-> ~ (exists occ, command lib args occ) /\ ~ asks_help lib args) /\
  forall k, main_flags lib args env = Exits k -> k = 0 \/ k = 2.
Proof.
  intros lib args env D. pose proof (C70_goes_on lib args env D) as G. pose proof (main_help lib D args env) as H. split; [exact H|].
  destruct (main_exits lib args env) as [(st & E)|[E|E]].
  - split; [|intros k K; congruence]. split; [congruence|]. intros (N & _). destruct N. apply G. exists st. exact E.
  - split; [|intros k K; left; congruence]. split; [congruence|]. intros (_ & N). destruct N. apply H, E.
  - split; [|intros k K; right; congruence]. split; [|intros _; exact E]. intros _. split.
    + intros K. apply G in K. destruct K as (st & K). congruence.
    + intros K. apply H in K. congruence.
Qed.
Print Assumptions C70_status.

(** ** The values *)

(** What it goes on with is what was asked for: for every flag the last value
    given, for lists all of them; if none was given, the variable of the
    environment; if there is none, the default. *)
Theorem C70_asked : forall lib args env st occ, distinct lib -> main_flags lib args env = Goes st -> command lib args occ -> asked occ env st.
Proof.
  intros lib args env st occ D H C. destruct (main_goes lib D args env st H) as (occ' & C' & A). rewrite (command_once lib args occ occ' D C C'). exact A.
Qed.
Print Assumptions C70_asked.

(** The texts and values of numbers are those of Go's integer literals that fit in 64 bits. *)
Theorem C70_numbers : forall t z, parse_int64 t = (z, true) <-> int64_text t z.
Proof. exact int_ok. Qed.
Print Assumptions C70_numbers.

(** Words after the flags have no effect. *)
Theorem C70_rest_ignored : forall lib pre occ tail tail' env, distinct lib -> spells (known lib) pre occ -> ends tail -> ends tail' ->
  main_flags lib (pre ++ tail) env = main_flags lib (pre ++ tail') env.
Proof.
  intros lib pre occ tail tail' env D Sp En En'. unfold main_flags. set (fs := own_flags ++ lib_flags lib).
  assert (Sp' : spells (known_in fs) pre occ) by (revert Sp; apply spells_impl; intros n b; apply (known_iff lib D)).
  assert (G : forall st g, (exists st' g', forall tail, ends tail -> exists rest, parse fs (pre ++ tail) st g = Parsed st' g' rest) \/
                           (forall tail, parse fs (pre ++ tail) st g = Misused)).
  { clear - Sp'. induction Sp' as [|w n v b args occ W (f & F & B) Sp IH|w n v args occ W (f & F & B) Sp IH|w n args occ W (f & F & B) Sp IH]; intros st g.
    - left. exists st, g. intros tail En. exact (parse_ends fs tail st g En).
    - destruct (set_to f v st) as [st1 [|]] eqn:E.
      + destruct (IH st1 (n :: g)) as [(st' & g' & H)|H]; [left; exists st', g' | right]; intros tail; try intros En; cbn [app];
          rewrite (parse_written fs _ _ _ _ _ _ W); unfold after; rewrite F, E; destruct (is_bool f); auto.
      + right. intros tail. cbn [app]. rewrite (parse_written fs _ _ _ _ _ _ W). unfold after. rewrite F, E. destruct (is_bool f); reflexivity.
    - destruct (set_to f v st) as [st1 [|]] eqn:E.
      + destruct (IH st1 (n :: g)) as [(st' & g' & H)|H]; [left; exists st', g' | right]; intros tail; try intros En; cbn [app];
          rewrite (parse_written fs _ _ _ _ _ _ W); unfold after; rewrite F, B, E; auto.
      + right. intros tail. cbn [app]. rewrite (parse_written fs _ _ _ _ _ _ W). unfold after. rewrite F, B, E. reflexivity.
    - destruct (set_to f (str "true") st) as [st1 [|]] eqn:E.
      + destruct (IH st1 (n :: g)) as [(st' & g' & H)|H]; [left; exists st', g' | right]; intros tail; try intros En; cbn [app];
          rewrite (parse_written fs _ _ _ _ _ _ W); unfold after; rewrite F, B, E; auto.
      + right. intros tail. cbn [app]. rewrite (parse_written fs _ _ _ _ _ _ W). unfold after. rewrite F, B, E. reflexivity. }
  destruct (G defaults []) as [(st' & g' & H)|H].
  - destruct (H tail En) as (r & ->), (H tail' En') as (r' & ->). reflexivity.
  - rewrite !H. reflexivity.
Qed.
Print Assumptions C70_rest_ignored.

(** ** Everything can be asked for *)

Lemma dec_literal n : literal (dec n) n.
Proof.
  destruct (dec_top n) as [->|T]; [change (dec 0) with [x30]; apply li_octal; constructor|].
  pose proof (dec_decimal n) as F. pose proof (dec_nonempty n) as N. assert (V : decimal_value (dec n) = n) by apply vald_dec.
  destruct (dec n) as [|c r]; [congruence|]. cbn [hd] in T. pose proof (Forall_inv F) as Hc. pose proof (Forall_inv_tail F) as Hr.
  apply li_decimal with (d := (bval c - 48)%N); [exact Hc | exact T | reflexivity|].
  unfold decimal_value in V. cbn [fold_left] in V. rewrite N.mul_0_r, N.add_0_l in V. revert V. generalize (bval c - 48)%N as a. clear - Hr.
  induction Hr as [|x r Hx Hr IH]; intros a V; [cbn in V; subst; constructor|]. cbn [fold_left] in V.
  apply (co_digit 10 a x (bval x - 48)); [left; split; [exact Hx | reflexivity] | unfold decimal_digit in Hx; lia | exact (IH _ V)].
Qed.
Lemma decZ_text z : (-9223372036854775808 <= z <= 9223372036854775807)%Z -> int64_text (decZ z) z.
Proof.
  intros R. split; [|exact R]. unfold decZ. destruct (z <? 0)%Z eqn:E.
  - exists [x2d], (dec (Z.to_N (- z))), (Z.to_N (- z)). split; [reflexivity|]. split; [apply dec_literal|]. right. split; [reflexivity | lia].
  - exists [], (dec (Z.to_N z)), (Z.to_N z). split; [reflexivity|]. split; [apply dec_literal|]. left. split; [auto | lia].
Qed.
Definition vals (n : bytes) (occ : list (bytes * bytes)) : list bytes := map snd (filter (fun nv => bytes_eqb (fst nv) n) occ).
Lemma values_vals n occ vs : values_of n occ vs -> vs = vals n occ.
Proof.
  intros Hv. unfold vals. induction Hv as [|v o vs Hv IH|m v o vs N Hv IH]; [reflexivity| |]; cbn [filter fst].
  - rewrite bytes_eqb_refl. cbn. congruence.
  - rewrite (bytes_neqb m n N). exact IH.
Qed.
Lemma texts_one occ env n var su ts t : texts occ env n var su ts -> forall X (x0 : X) means bad a, meant ts x0 means bad su a -> vals n occ = [t] ->
  means t a \/ forall a', ~ means t a'.
Proof.
  intros (vs & Hv & H) X x0 means bad a M E. apply values_vals in Hv. rewrite E in Hv. subst vs. destruct H as [(_ & _ & ->)|(H & _)]; [|discriminate H].
  destruct M as [(H & _)|(b & t' & H & K)]; [discriminate H|]. destruct b as [|? [|? ?]]; try discriminate H. injection H as <-. tauto.
Qed.
(** Every setting can be had from some command line, except that lists cannot be
    made empty if the environment has something for them. *)
Theorem C70_expressible : forall lib env st, distinct lib ->
  (-9223372036854775808 <= f_reps st <= 9223372036854775807)%Z ->
  Forall (fun w => ~ In x2c w) (f_ports st) -> Forall (fun w => ~ In x2c w) (f_ips st) ->
  (f_ports st = [] -> env (str "EXCLUDE_SRCPORT") = None) -> (f_ips st = [] -> env (str "EXCLUDE_DSTIP") = None) ->
  exists args, main_flags lib args env = Goes st.
Proof.
  intros lib env st D R Fp Fi Ep Ei.
  set (list_of (n : string) (l : list bytes) := match l with [] => [] | _ => [str n ++ joined l] end).
  exists ([str "-reps=" ++ decZ (f_reps st); (if f_trace st then str "-trace" else str "-trace=false"); str "-output=" ++ f_output st;
           str "-tcpinfo.eventsocket=" ++ f_socket st; (match f_anon st with MNone => str "-anonymize.ip=none" | MNetblock => str "-anonymize.ip=netblock" end)]
          ++ list_of "-exclude-srcport="%string (f_ports st) ++ list_of "-exclude-dstip="%string (f_ips st)).
  set (occ_of (n : string) (l : list bytes) := match l with [] => [] | _ => [(str n, joined l)] end).
  set (occ := [(str "reps", decZ (f_reps st)); (str "trace", if f_trace st then str "true" else str "false"); (str "output", f_output st);
               (str "tcpinfo.eventsocket", f_socket st); (str "anonymize.ip", match f_anon st with MNone => str "none" | MNetblock => str "netblock" end)]
              ++ occ_of "exclude-srcport"%string (f_ports st) ++ occ_of "exclude-dstip"%string (f_ips st)).
  assert (O : forall n var b, In (n, (var, b)) own -> known lib n b) by (intros n var b I; left; exists var; exact I).
  assert (W : forall n v, In n (map fst own) -> written (x2d :: n ++ x3d :: v) n (Some v)).
  { intros n v I. exists (str "-"). split; [left; reflexivity|]. cbn in I. decompose [or] I; try contradiction; subst n;
      (split; [discriminate|]; split; [discriminate|]; split; [|reflexivity]); intros K; cbn in K; decompose [or] K; try discriminate; contradiction. }
  assert (C : command lib ([str "-reps=" ++ decZ (f_reps st); (if f_trace st then str "-trace" else str "-trace=false"); str "-output=" ++ f_output st;
           str "-tcpinfo.eventsocket=" ++ f_socket st; (match f_anon st with MNone => str "-anonymize.ip=none" | MNetblock => str "-anonymize.ip=netblock" end)]
          ++ list_of "-exclude-srcport="%string (f_ports st) ++ list_of "-exclude-dstip="%string (f_ips st)) occ).
  { eexists _, []. split; [symmetry; apply app_nil_r|]. split; [|split; [left; reflexivity|]].
    - unfold occ. cbn [app]. apply (sp_value _ _ _ _ false); [apply (W (str "reps")); cbn; auto | apply (O _ (str "REPS")); cbn; auto|].
      assert (X : forall args occ, spells (known lib) args occ ->
        spells (known lib) ((if f_trace st then str "-trace" else str "-trace=false") :: args) ((str "trace", if f_trace st then str "true" else str "false") :: occ)).
      { intros a o Sp. destruct (f_trace st).
        - apply sp_alone; [|apply (O _ (str "TRACE")); cbn; auto | exact Sp]. exists (str "-"). split; [left; reflexivity|]. split; [discriminate|]. split; [discriminate|].
          split; [|reflexivity]. intros K; cbn in K; decompose [or] K; try discriminate; contradiction.
        - apply (sp_value _ _ _ _ true); [apply (W (str "trace")); cbn; auto | apply (O _ (str "TRACE")); cbn; auto | exact Sp]. }
      apply X. apply (sp_value _ _ _ _ false); [apply (W (str "output")); cbn; auto | apply (O _ (str "OUTPUT")); cbn; auto|].
      apply (sp_value _ _ _ _ false); [apply (W (str "tcpinfo.eventsocket")); cbn; auto 10 | apply (O _ (str "TCPINFO_EVENTSOCKET")); cbn; auto 10|].
      apply (sp_value _ _ _ _ false); [destruct (f_anon st); [apply (W (str "anonymize.ip") (str "none")) | apply (W (str "anonymize.ip") (str "netblock"))]; cbn; auto 10
                                      | apply (O _ (str "ANONYMIZE_IP")); cbn; auto 10|].
      assert (Y : spells (known lib) (list_of "-exclude-dstip="%string (f_ips st)) (occ_of "exclude-dstip"%string (f_ips st))).
      { unfold list_of, occ_of. destruct (f_ips st); [constructor|]. apply (sp_value _ _ _ _ false); [|apply (O _ (str "EXCLUDE_DSTIP")); cbn; auto 10 | constructor].
        apply (W (str "exclude-dstip")). cbn. auto 10. }
      unfold list_of at 1, occ_of at 1. destruct (f_ports st); [exact Y|]. cbn [app].
      apply (sp_value _ _ _ _ false); [|apply (O _ (str "EXCLUDE_SRCPORT")); cbn; auto 10 | exact Y].
      apply (W (str "exclude-srcport")). cbn. auto 10.
    - assert (Q : forall n v, In n (map fst own) -> (n = str "reps" -> exists z, int64_text v z) -> (n = str "trace" -> exists b, bool_text v b) ->
                  (n = str "anonymize.ip" -> exists m, method_text v m) -> acceptable lib (n, v)).
      { intros n v I H1 H2 H3. split; [exact H1|]. split; [exact H2|]. split; [exact H3|]. intros b acc J. destruct (lib_not_own lib D n b acc J I). }
      unfold occ. rewrite !List.Forall_app. split; [|split].
      + repeat constructor; cbn [fst snd]; try (intros E; discriminate E).
        all: try (intros _; first [exists (f_reps st); apply decZ_text, R
          | destruct (f_trace st); [exists true | exists false]; cbn; auto 20
          | destruct (f_anon st); [exists MNone | exists MNetblock]; cbn; auto]).
        all: intros b acc J; exfalso; apply (lib_not_own lib D _ _ _ J); cbn; auto 10.
      + unfold occ_of. destruct (f_ports st); repeat constructor; cbn [fst snd]; try (intros E; discriminate E).
        intros b0 acc J. exfalso. apply (lib_not_own lib D _ _ _ J). cbn. auto 10.
      + unfold occ_of. destruct (f_ips st); repeat constructor; cbn [fst snd]; try (intros E; discriminate E).
        intros b0 acc J. exfalso. apply (lib_not_own lib D _ _ _ J). cbn. auto 10. }
  destruct (main_command lib D _ env occ C) as (st' & G & A). rewrite G. f_equal.
  assert (NN : forall n, vals n (occ_of "exclude-srcport"%string (f_ports st) ++ occ_of "exclude-dstip"%string (f_ips st)) =
     (if bytes_eqb (str "exclude-srcport") n then match f_ports st with [] => [] | l => [joined l] end else []) ++
     (if bytes_eqb (str "exclude-dstip") n then match f_ips st with [] => [] | l => [joined l] end else [])).
  { intros n. unfold vals. rewrite filter_app, map_app. unfold occ_of.
    assert (Z : forall (m : string) (l : list bytes), map snd (filter (fun nv : bytes * bytes => bytes_eqb (fst nv) n) match l with [] => [] | _ => [(str m, joined l)] end) =
                if bytes_eqb (str m) n then match l with [] => [] | l => [joined l] end else []).
    { intros m l. destruct l; [destruct (bytes_eqb _ _); reflexivity|]. cbn [filter fst]. destruct (bytes_eqb (str m) n); reflexivity. }
    rewrite !Z. destruct (f_ports st), (f_ips st); reflexivity. }
  assert (VV : forall n, vals n occ = vals n [(str "reps", decZ (f_reps st)); (str "trace", if f_trace st then str "true" else str "false"); (str "output", f_output st);
               (str "tcpinfo.eventsocket", f_socket st); (str "anonymize.ip", match f_anon st with MNone => str "none" | MNetblock => str "netblock" end)] ++
     (if bytes_eqb (str "exclude-srcport") n then match f_ports st with [] => [] | l => [joined l] end else []) ++
     (if bytes_eqb (str "exclude-dstip") n then match f_ips st with [] => [] | l => [joined l] end else [])).
  { intros n. rewrite <- NN. unfold occ, vals. rewrite <- map_app, <- filter_app. reflexivity. }
  clearbody occ.
  destruct A as [(s1 & t1 & T1 & A1) (s2 & t2 & T2 & A2) (s3 & t3 & T3 & A3) (s4 & t4 & w4 & T4 & F4 & A4) (s5 & t5 & w5 & T5 & F5 & A5) (s6 & t6 & T6 & A6) (s7 & t7 & T7 & A7)].
  apply (texts_one _ _ _ _ _ _ (decZ (f_reps st)) T1) in A1; [|rewrite VV; reflexivity]. destruct A1 as [A1|A1]; [|destruct (A1 _ (decZ_text _ R))].
  apply int_ok in A1. rewrite (proj2 (int_ok _ _) (decZ_text _ R)) in A1. injection A1 as A1.
  apply (texts_one _ _ _ _ _ _ (if f_trace st then str "true" else str "false") T2) in A2; [|rewrite VV; reflexivity].
  assert (B2 : bool_text (if f_trace st then str "true" else str "false") (f_trace st)) by (destruct (f_trace st); cbn; auto 20).
  destruct A2 as [A2|A2]; [|destruct (A2 _ B2)]. apply bool_ok in A2, B2. rewrite B2 in A2. injection A2 as A2.
  apply (texts_one _ _ _ _ _ _ (f_output st) T3) in A3; [|rewrite VV; reflexivity]. destruct A3 as [A3|A3]; [|destruct (A3 _ eq_refl)].
  apply (texts_one _ _ _ _ _ _ (f_socket st) T6) in A6; [|rewrite VV; reflexivity]. destruct A6 as [A6|A6]; [|destruct (A6 _ eq_refl)].
  apply (texts_one _ _ _ _ _ _ (match f_anon st with MNone => str "none" | MNetblock => str "netblock" end) T7) in A7; [|rewrite VV; reflexivity].
  assert (A7' : f_anon st' = f_anon st).
  { destruct (f_anon st); destruct A7 as [A7|A7]; try (destruct (A7 MNone ltac:(cbn; auto))); try (destruct (A7 MNetblock ltac:(cbn; auto)));
      destruct A7 as [A7|[A7|[]]]; inversion A7; reflexivity. }
  assert (L : forall n var su ts ws l, texts occ env n var su ts -> Forall2 comma_list ts ws -> Forall (fun w => ~ In x2c w) l ->
              vals n occ = match l with [] => [] | l => [joined l] end -> (l = [] -> env var = None) -> concat ws = l).
  { intros n var su ts ws l (vs & Hv & Ht) F2 Fl Ev En. apply values_vals in Hv. rewrite Ev in Hv. destruct l as [|w l].
    - subst vs. destruct Ht as [(Q & _)|(_ & _ & ->)]; [congruence|]. rewrite (En eq_refl) in F2. inversion F2. reflexivity.
    - subst vs. destruct Ht as [(_ & _ & ->)|(Q & _)]; [|discriminate Q]. inversion F2 as [|? x ? y Hx Hy]; subst. inversion Hy; subst. cbn [concat]. rewrite app_nil_r.
      rewrite (split_unique _ _ Hx). symmetry. apply split_unique. split; [discriminate|]. auto. }
  rewrite (L _ _ _ _ _ (f_ports st) T4 F4 Fp) in A4; [|rewrite VV; destruct (f_ports st); reflexivity | exact Ep].
  rewrite (L _ _ _ _ _ (f_ips st) T5 F5 Fi) in A5; [|rewrite VV; destruct (f_ips st); reflexivity | exact Ei].
  destruct st, st'. cbn in *. congruence.
Qed.
Print Assumptions C70_expressible.

(** ** What is excluded *)

(** With the flags and the variables as they are, the connections left out are
    the local ones, those with a destination named between the commas of some
    -exclude-dstip and those with a local port named between the commas of some
    -exclude-srcport (or of the variables, if the flag is not given). *)
Theorem C70_excludes : forall lib args env st, distinct lib -> main_flags lib args env = Goes st ->
  exists occ ips ports su1 ts1 wss1 su2 ts2 wss2, command lib args occ /\
    texts occ env (str "exclude-dstip") (str "EXCLUDE_DSTIP") su1 ts1 /\ Forall2 comma_list ts1 wss1 /\ ips = concat wss1 /\
    texts occ env (str "exclude-srcport") (str "EXCLUDE_SRCPORT") su2 ts2 /\ Forall2 comma_list ts2 wss2 /\ ports = concat wss2 /\
    forall msg, make_archival_record msg (Some (main_config (f_ips st) (f_ports st))) = Ret None <->
      h_type (m_header msg) = 20%N /\ 72 <= length (data_of msg) /\ unwanted ips ports (raw_of msg).
Proof.
  intros lib args env st D H. destruct (main_goes lib D args env st H) as (occ & C & A).
  destruct A as [_ _ _ (s4 & t4 & w4 & T4 & F4 & E4) (s5 & t5 & w5 & T5 & F5 & E5) _ _].
  exists occ, (concat w5), (concat w4), s5, t5, w5, s4, t4, w4. repeat (split; [first [assumption | reflexivity]|]).
  intros msg. rewrite <- E4, <- E5. apply C51_main_excludes.
Qed.
Print Assumptions C70_excludes.

(** ** A variable with a bad value *)

Definition only (var text : string) : bytes -> option bytes := fun n => if bytes_eqb n (str var) then Some (str text) else None.
(** On the command line a value that is not a number, not a truth value or not a
    method ends the program; in the environment it does not: ArgsFromEnv returns an
    error, which main.go:84 ignores.  With REPS=ten the program runs for ever. *)
Theorem C70_bad_variable_refuted : ~ (forall lib args env occ v, distinct lib -> command lib args occ -> ~ In (str "reps") (map fst occ) ->
  env (str "REPS") = Some v -> (forall z, ~ int64_text v z) -> exists k, main_flags lib args env = Exits k).
Proof.
  intros H. destruct (H [] [] (only "REPS" "ten") [] (str "ten")) as (k & K); [| | | | |discriminate K].
  - unfold distinct. cbn. repeat constructor; cbn; intuition discriminate.
  - exists [], []. split; [reflexivity|]. split; [constructor|]. split; [left; reflexivity | constructor].
  - intros [].
  - reflexivity.
  - intros z Z. apply int_ok in Z. discriminate Z.
Qed.
Print Assumptions C70_bad_variable_refuted.

(** With a method that is misspelt in the environment addresses are not anonymized. *)
Theorem C70_misspelt_refuted : ~ (forall lib args env occ v st, distinct lib -> command lib args occ -> ~ In (str "anonymize.ip") (map fst occ) ->
  env (str "ANONYMIZE_IP") = Some v -> v <> str "none" -> main_flags lib args env = Goes st -> f_anon st = MNetblock).
Proof.
  intros H. specialize (H [] [] (only "ANONYMIZE_IP" "Netblock") [] (str "Netblock") defaults). discriminate H; clear H.
  - unfold distinct. cbn. repeat constructor; cbn; intuition discriminate.
  - exists [], []. split; [reflexivity|]. split; [constructor|]. split; [left; reflexivity | constructor].
  - intros [].
  - reflexivity.
  - discriminate.
  - reflexivity.
Qed.
Print Assumptions C70_misspelt_refuted.

(** A command line that gives a flag need not set it: what comes after a word that
    is not a flag is not read. *)
Theorem C70_every_word_refuted : ~ (forall lib args env st, distinct lib -> main_flags lib args env = Goes st ->
  In (str "-anonymize.ip=netblock") args -> f_anon st = MNetblock).
Proof.
  intros H. specialize (H [] [str "-trace"; str "true"; str "-anonymize.ip=netblock"] (fun _ => None) (mkset 0 true [] [] [] [] MNone)).
  discriminate H; clear H; [|reflexivity | right; right; left; reflexivity].
  unfold distinct. cbn. repeat constructor; cbn; intuition discriminate.
Qed.
Print Assumptions C70_every_word_refuted.

(** ** The example client *)

(** The example client goes on iff its command line is in order, all variables
    have values that the flags accept, and a name of a socket is given; it uses
    the last one given, or else the variable. *)
Theorem C70_client : forall lib args env name, client_distinct lib ->
  (client_flags lib args env = Goes name <->
   exists occ su before, client_command lib args occ /\ good_variables lib env occ /\
     texts occ env (str "tcpinfo.eventsocket") (str "TCPINFO_EVENTSOCKET") su (before ++ [name]) /\ name <> []).
Proof.
  intros lib args env name D.
  assert (TU : forall occ n var su ts su' ts', texts occ env n var su ts -> texts occ env n var su' ts' -> ts = ts').
  { intros occ n var su ts su' ts' (vs & V & H) (vs' & V' & H'). apply values_vals in V, V'. subst vs'. rewrite <- V in H'.
    destruct H as [(N & _ & ->)|(N & _ & ->)], H' as [(N' & _ & ->)|(N' & _ & ->)]; congruence. }
  assert (GV : forall occ, good_variables lib env occ \/ ~ good_variables lib env occ).
  { intros occ. pose proof (c_good lib D occ env []) as G. destruct (snd (args_from_env (client_own ++ lib_flags lib) (rev (map fst occ)) env [])).
    - left. apply G. reflexivity.
    - right. intros K. apply G in K. discriminate K. }
  split.
  - intros H. destruct (client_goes_command lib D args env name (or_introl H)) as (occ & C).
    destruct (client_command_run lib D args env occ C) as (su & ts & T & R1 & R2). destruct (GV occ) as [G|G]; [|rewrite (R2 G) in H; discriminate H].
    rewrite (R1 G) in H. destruct (rev ts) as [|[|c r] l] eqn:E; try discriminate H. injection H as <-. exists occ, su, (rev l).
    rewrite (rev_last ts l (c :: r) E) in T. split; [exact C|]. split; [exact G|]. split; [exact T | discriminate].
  - intros (occ & su & before & C & G & T & N). destruct (client_command_run lib D args env occ C) as (su' & ts & T' & R1 & _).
    rewrite (R1 G), (TU _ _ _ _ _ _ _ T' T), rev_app_distr. cbn [rev app]. destruct name; [congruence | reflexivity].
Qed.
Print Assumptions C70_client.

(** It exits with status 1 iff the command line is in order but a variable has a
    bad value or no name is given. *)
Theorem C70_client_status : forall lib args env, client_distinct lib ->
  (client_flags lib args env = Exits 1 <->
   exists occ, client_command lib args occ /\
     (~ good_variables lib env occ \/
      exists su ts, texts occ env (str "tcpinfo.eventsocket") (str "TCPINFO_EVENTSOCKET") su ts /\ (ts = [] \/ exists before, ts = before ++ [[]]))).
Proof.
  intros lib args env D. split.
  - intros H. destruct (client_goes_command lib D args env [] (or_intror H)) as (occ & C). exists occ. split; [exact C|].
    destruct (client_command_run lib D args env occ C) as (su & ts & T & R1 & _).
    pose proof (c_good lib D occ env []) as G. destruct (snd (args_from_env (client_own ++ lib_flags lib) (rev (map fst occ)) env [])) eqn:E.
    + right. exists su, ts. split; [exact T|]. specialize (R1 (proj1 G eq_refl)). rewrite H in R1.
      destruct (rev ts) as [|[|c r] l] eqn:Er; [left | right; exists (rev l); apply rev_last; exact Er | discriminate R1].
      rewrite <- (rev_involutive ts), Er. reflexivity.
    + left. intros K. apply G in K. discriminate K.
  - intros (occ & C & H). destruct (client_command_run lib D args env occ C) as (su & ts & T & R1 & R2).
    pose proof (c_good lib D occ env []) as G. destruct (snd (args_from_env (client_own ++ lib_flags lib) (rev (map fst occ)) env [])) eqn:E.
    + destruct H as [H|(su' & ts' & T' & H)]; [destruct (H (proj1 G eq_refl))|]. rewrite (R1 (proj1 G eq_refl)).
      assert (ts = ts') as ->.
      { destruct T as (vs & V & X), T' as (vs' & V' & X'). apply values_vals in V, V'. subst vs'. rewrite <- V in X'.
        destruct X as [(N & _ & ->)|(N & _ & ->)], X' as [(N' & _ & ->)|(N' & _ & ->)]; congruence. }
      destruct H as [->|(b & ->)]; [reflexivity|]. rewrite rev_app_distr. reflexivity.
    + apply R2. intros K. apply G in K. discriminate K.
Qed.
Print Assumptions C70_client_status.

(** A variable that the client does not even use stops it, where the same variable
    does not stop the collector. *)
Theorem C70_same_rules_refuted : ~ (forall lib args env name st, client_distinct lib -> distinct lib ->
  main_flags lib args env = Goes st -> f_socket st = name -> name <> [] -> client_flags lib args env = Goes name).
Proof.
  intros H.
  specialize (H [(str "log", (true, fun v => snd (parse_bool v)))] [str "-tcpinfo.eventsocket=/s"] (only "LOG" "yes") (str "/s")
    (mkset 0 false [] [] [] (str "/s") MNone)).
  discriminate H; clear H.
  - unfold client_distinct. cbn. repeat constructor; cbn; intuition discriminate.
  - unfold distinct. cbn. repeat constructor; cbn; intuition discriminate.
  - reflexivity.
  - reflexivity.
  - discriminate.
Qed.
Print Assumptions C70_same_rules_refuted.

(** ** Examples *)

Definition lib0 : library := [(str "prometheusx.listen-address", (false, fun _ => true))].
Definition noenv : bytes -> option bytes := fun _ => None.
Example flags_distinct : distinct lib0.
Proof. unfold distinct. cbn. repeat constructor; cbn; intuition discriminate. Qed.
Example client_flags_distinct : client_distinct lib0.
Proof. unfold client_distinct. cbn. repeat constructor; cbn; intuition discriminate. Qed.
Example flags_usual : main_flags lib0 (map str ["-reps=0x1f"; "--output"; "/data"; "-exclude-srcport"; "443,9000"; "-prometheusx.listen-address=:9090"; "-anonymize.ip=netblock"]%string)
    (only "EXCLUDE_DSTIP" "192.0.2.1") =
  Goes (mkset 31 false (str "/data") [str "443"; str "9000"] [str "192.0.2.1"] [] MNetblock).
Proof. reflexivity. Qed.
Example flags_truth_word : main_flags lib0 (map str ["-trace"; "false"; "-reps=3"]%string) noenv = Goes (mkset 0 true [] [] [] [] MNone).
Proof. reflexivity. Qed.
Example flags_value_like_flag : main_flags lib0 (map str ["-output"; "-trace"; "-reps=1_000"]%string) noenv = Goes (mkset 1000 false (str "-trace") [] [] [] MNone).
Proof. reflexivity. Qed.
Example flags_line_wins : main_flags lib0 (map str ["-reps=5"]%string) (only "REPS" "7") = Goes (mkset 5 false [] [] [] [] MNone).
Proof. reflexivity. Qed.
Example flags_variable : main_flags lib0 [] (only "REPS" "7") = Goes (mkset 7 false [] [] [] [] MNone).
Proof. reflexivity. Qed.
Example flags_bad : main_flags lib0 (map str ["-reps=ten"]%string) noenv = Exits 2 /\ main_flags lib0 (map str ["-rep=1"]%string) noenv = Exits 2 /\
  main_flags lib0 (map str ["-reps"]%string) noenv = Exits 2 /\ main_flags lib0 (map str ["-anonymize.ip=Netblock"]%string) noenv = Exits 2 /\
  main_flags lib0 (map str ["-trace"; "-help"; "-nonsense"]%string) noenv = Exits 0.
Proof. repeat split. Qed.
Example client_usual : client_flags lib0 (map str ["-tcpinfo.eventsocket"; "/var/s"]%string) noenv = Goes (str "/var/s") /\
  client_flags lib0 [] (only "TCPINFO_EVENTSOCKET" "/env/s") = Goes (str "/env/s") /\ client_flags lib0 [] noenv = Exits 1.
Proof. repeat split. Qed.
