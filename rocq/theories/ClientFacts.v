(** Facts about the event client. *)
From Coq Require Import Strings.String List NArith ZArith Bool Lia.
From Verif Require Import GoBase GoBaseFacts GoTime Rfc3339 Rfc3339Facts Json SpecJson JsonFacts JsonPrefix Archive SpecArchive ArchiveFacts
  NetIP Reader SpecReader ReaderFacts LineFacts RecordFacts LengthFacts Inetdiag EventName EventServer EventClient SpecClient.
Import ListNotations.
Local Open Scope list_scope.

(** ** The loop *)
Lemma handled_dispatch e : handled e (dispatch e).
Proof.
  destruct e as [n t u id]. unfold dispatch. cbn [fe_event fe_time fe_uuid fe_id]. unfold Open, Close.
  destruct (Z.eqb_spec n 0); [subst; constructor|]. destruct (Z.eqb_spec n 1); [subst; constructor|]. constructor; assumption.
Qed.
Lemma handled_unique e c c' : handled e c -> handled e c' -> c = c'.
Proof. intros H K. destruct H; inversion K; subst; try reflexivity; lia. Qed.

Lemma unmarshal_event_total b : (exists e, unmarshal_event b = Ret e) \/ unmarshal_event b = Fail ErrJSON.
Proof.
  unfold unmarshal_event. destruct (parse b) as [[| | | | |l]|]; eauto. destruct (read_fields event_field l zero_event); eauto.
Qed.

Lemma final_spec final : (quiet final /\ final_error (Some final) = Returned) \/ (~ quiet final /\ final_error (Some final) = Fatal final).
Proof.
  unfold quiet. destruct final; cbn [final_error]; try (left; split; [auto|reflexivity]); right; (split; [intros [K|K]; discriminate K|reflexivity]).
Qed.

Lemma run_serves fuel : forall s calls, good s -> length (rest s) < fuel ->
  exists cs e, serves (in_eager (sc_in s)) (in_err (sc_in s)) (lines (rest s)) cs e /\ run_go fuel s calls = Ret (calls ++ cs, e).
Proof.
  induction fuel as [|fuel IH]; intros s calls G L; [lia|].
  pose proof (scan_spec s G) as SP. cbn [run_go].
  destruct (lines (rest s)) as [|l ls].
  - destruct SP as (s' & -> & Er). rewrite Er. destruct (final_spec (in_err (sc_in s))) as [[Q ->]|[Q ->]].
    + exists [], Returned. rewrite app_nil_r. split; [constructor; exact Q|reflexivity].
    + exists [], (Fatal (in_err (sc_in s))). rewrite app_nil_r. split; [apply serves_error; exact Q|reflexivity].
  - destruct (fits (in_eager (sc_in s)) l) eqn:F.
    + destruct SP as (s' & -> & G' & LS & E1 & E2 & LT & _).
      destruct (unmarshal_event_total (without_cr (fst l))) as [(e & U)|U]; rewrite U.
      * destruct (IH s' (calls ++ dispatch e) G') as (cs & en & S & R); [lia|].
        rewrite LS, E1, E2 in S. exists (dispatch e ++ cs), en. split.
        -- eapply serves_line; [exact F|exact U|apply handled_dispatch|exact S].
        -- rewrite R, <- app_assoc. reflexivity.
      * exists [], (Fatal ErrJSON). rewrite app_nil_r. split; [apply serves_bad; assumption|reflexivity].
    + destruct SP as (s' & -> & Er). rewrite Er. exists [], (Fatal ErrIO). rewrite app_nil_r. split; [apply serves_long; exact F|reflexivity].
Qed.

Lemma serves_unique eager final ls cs e : serves eager final ls cs e -> forall cs' e', serves eager final ls cs' e' -> cs = cs' /\ e = e'.
Proof.
  induction 1 as [Q|Q|l ls F|l ls e F U|l ls ev c cs e F U H S IH]; intros cs' e' K; inversion K; subst; try contradiction; try congruence; auto.
  - split; [reflexivity|congruence].
  - match goal with A : unmarshal_event _ = Ret ?x, B : handled ?x _, C : serves _ _ _ _ _ |- _ =>
      rewrite U in A; injection A as <-; rewrite (handled_unique _ _ _ H B) end.
    match goal with C : serves _ _ ls ?y _ |- _ => destruct (IH _ _ C) as [-> ->] end. auto.
Qed.

Lemma client_serves i : solid i -> exists cs e, serves (in_eager i) (in_err i) (lines (contents i)) cs e /\ must_run (Ret i) = Ret (cs, e).
Proof.
  intros S. unfold must_run.
  destruct (run_serves (2 + length (concat (in_chunks i))) (new_scanner i) []) as (cs & e & H & R).
  - apply good_new, S.
  - unfold rest, new_scanner, contents. cbn [sc_in sc_data app]. lia.
  - exists cs, e. split; [exact H|exact R].
Qed.

Lemma client_iff i cs e : solid i -> (must_run (Ret i) = Ret (cs, e) <-> serves (in_eager i) (in_err i) (lines (contents i)) cs e).
Proof.
  intros S. destruct (client_serves i S) as (cs' & e' & H & R). split.
  - intros K. rewrite R in K. injection K as <- <-. exact H.
  - intros K. destruct (serves_unique _ _ _ _ _ H _ _ K) as [-> ->]. exact R.
Qed.

(** ** Events as JSON *)
Ltac keys := repeat match goal with
  | |- context [unquote (str ?s)] => change (unquote (str s)) with (str s)
  | |- context [same_key (str ?a) (str ?b)] =>
      first [change (same_key (str a) (str b)) with true | change (same_key (str a) (str b)) with false]
  end; cbv iota.

Lemma dec_decZ n : dec n = decZ (Z.of_N n).
Proof. unfold decZ. destruct (Z.ltb_spec (Z.of_N n) 0); [lia|]. rewrite N2Z.id. reflexivity. Qed.
Lemma dec_num n : num_ok (dec n). Proof. rewrite dec_decZ. apply decZ_ok. Qed.
Lemma dec_high n : no_control (dec n). Proof. rewrite dec_decZ. apply decZ_high. Qed.

Lemma read_uint_dec hi n old : (Z.of_N n <= hi)%Z -> read_uint hi (JNum (dec n)) old = Some n.
Proof. intros H. cbn [read_uint]. rewrite parse_unsigned_dec by exact H. rewrite N2Z.id. reflexivity. Qed.

Lemma sockid_ok id : proper_sockid id ->
  wf (sockid_json id) /\ nums_high (sockid_json id) /\ read_sockid (sockid_json id) None = Some (Some id).
Proof.
  intros (P1 & P2 & P3 & P4 & P5 & P6). unfold sockid_json. split; [|split].
  - constructor. repeat (apply Forall_cons; [split; [apply key_ok; repeat constructor|cbn [snd]; constructor; first [apply dec_num|apply decZ_ok|apply quote_ok]]|]).
    apply Forall_nil.
  - cbn [nums_high fold_right snd]. repeat split; first [apply dec_high|apply decZ_high].
  - cbn [read_sockid read_fields].
    do 6 (unfold sockid_field at 1; keys; rewrite ?read_uint_dec by lia; cbn [read_string read_int option_map sid_sport sid_dport sid_src sid_dst sid_if sid_cookie zero_sockid];
      rewrite ?unquote_quote by assumption; unfold min_int64, max_int64; rewrite ?parse_int_decZ by exact P6; cbn [option_map]).
    destruct id. reflexivity.
Qed.

Lemma event_ok zone e : proper_event zone e ->
  exists l, event_json zone e = Some (JObj l) /\ wf (JObj l) /\ nums_high (JObj l) /\ read_fields event_field l zero_event = Some e.
Proof.
  intros (P1 & P2 & P3 & P4). apply time_json_some in P2. destruct P2 as [s Es]. destruct (time_ok zone _ s Es) as [S T].
  assert (I : wf (match fe_id e with Some id => sockid_json id | None => JNull end) /\
              nums_high (match fe_id e with Some id => sockid_json id | None => JNull end) /\
              read_sockid (match fe_id e with Some id => sockid_json id | None => JNull end) None = Some (fe_id e)).
  { destruct (fe_id e) as [id|]; [apply sockid_ok, P4; reflexivity|]. repeat split; constructor. }
  destruct I as (I1 & I2 & I3).
  unfold event_json, time_json. rewrite Es. eexists. split; [reflexivity|]. split; [|split].
  - constructor. repeat (apply Forall_cons; [split; [apply key_ok; repeat constructor|cbn [snd]; first [exact I1|constructor; first [apply decZ_ok|apply quote_ok|exact S]]]|]).
    apply Forall_nil.
  - cbn [nums_high fold_right snd]. split; [apply decZ_high|]. split; [exact I|]. split; [exact I|]. split; [exact I2|exact I].
  - cbn [read_fields]. unfold event_field at 1. keys. cbn [read_int fe_event zero_event]. unfold min_int64, max_int64.
    rewrite parse_int_decZ by exact P1. cbn [option_map fe_time fe_uuid fe_id].
    unfold event_field at 1. keys. rewrite T. cbn [option_map fe_event fe_uuid fe_id].
    unfold event_field at 1. keys. cbn [read_string]. rewrite unquote_quote by exact P3. cbn [option_map fe_event fe_time fe_id].
    unfold event_field at 1. keys. cbn [fe_event fe_time fe_uuid fe_id zero_event]. rewrite I3. destruct e. reflexivity.
Qed.

Lemma event_depth zone e j : event_json zone e = Some j -> (depth j <= max_depth)%N.
Proof. unfold event_json. destruct (time_json zone (fe_time e)) as [t|] eqn:T; [|discriminate]. intros [= <-]. unfold time_json in T. destruct (marshal_time _ _); [|discriminate T].
  injection T as <-. destruct (fe_id e); discriminate. Qed.
Lemma event_round_trip zone e : proper_event zone e ->
  exists b, marshal_event zone e = Some b /\ unmarshal_event b = Ret e /\ ~ In x0a b /\ ~ In x0d b.
Proof.
  intros P. destruct (event_ok zone e P) as (l & E & W & N & R). exists (render (JObj l)). unfold marshal_event. rewrite E.
  split; [reflexivity|]. split.
  - unfold unmarshal_event. rewrite (parse_render _ W (event_depth _ _ _ E)), R. reflexivity.
  - apply no_control_newline, render_high; assumption.
Qed.
Lemma event_text_ok zone e : proper_event zone e ->
  marshal_event zone e = Some (event_text zone e) /\ unmarshal_event (event_text zone e) = Ret e /\
  ~ In x0a (event_text zone e) /\ ~ In x0d (event_text zone e).
Proof.
  intros P. destruct (event_round_trip zone e P) as (b & E & U & N). unfold event_text. rewrite E. auto.
Qed.
Lemma event_cut zone e p q : proper_event zone e -> event_text zone e = p ++ q -> q <> [] -> unmarshal_event p = Fail ErrJSON.
Proof.
  intros P E N. destruct (event_ok zone e P) as (l & Ej & W & _ & _). unfold event_text, marshal_event in E. rewrite Ej in E.
  unfold unmarshal_event. rewrite (parse_cut l p q W E N). reflexivity.
Qed.

(** ** Streams of events *)
Lemma stream_lines zone es p : Forall (proper_event zone) es ->
  lines (concat (map (event_line zone) es) ++ p) = map (fun e => (event_text zone e, true)) es ++ lines p.
Proof.
  intros H. unfold event_line. rewrite <- (map_map (event_text zone) (fun l => l ++ [x0a])), lines_app, map_map; [reflexivity|].
  apply Forall_map. eapply Forall_impl; [|exact H]. intros e P. apply (event_text_ok zone e P).
Qed.

Lemma serves_events zone eager final es : Forall (proper_event zone) es -> Forall (brief zone) es -> forall ls cs e,
  serves eager final ls cs e ->
  serves eager final (map (fun e => (event_text zone e, true)) es ++ ls) (concat (map dispatch es) ++ cs) e.
Proof.
  intros P B ls cs en S. induction P as [|e es Pe Ps IH]; [exact S|].
  inversion B as [|? ? Be Bs]; subst. cbn [map concat app]. rewrite <- app_assoc.
  destruct (event_text_ok zone e Pe) as (_ & U & _ & N). eapply serves_line; [|cbn [fst]; rewrite no_cr by exact N; exact U|apply handled_dispatch|apply IH, Bs].
  unfold fits. cbn [fst]. apply orb_true_iff. left. apply N.ltb_lt. exact Be.
Qed.

Lemma forall_handled es css : Forall2 handled es css <-> css = map dispatch es.
Proof.
  split.
  - induction 1 as [|e c es css H _ IH]; [reflexivity|]. cbn [map]. rewrite (handled_unique _ _ _ H (handled_dispatch e)), IH. reflexivity.
  - intros ->. induction es; constructor; [apply handled_dispatch|assumption].
Qed.

Lemma delivered zone i es css : Forall (proper_event zone) es -> Forall (brief zone) es -> Forall2 handled es css ->
  solid i -> quiet (in_err i) -> contents i = concat (map (event_line zone) es) -> must_run (Ret i) = Ret (concat css, Returned).
Proof.
  intros P B H S Q C. apply forall_handled in H. subst css. apply client_iff; [exact S|].
  rewrite C, <- (app_nil_r (concat (map (event_line zone) es))), (stream_lines zone es [] P), <- (app_nil_r (concat (map dispatch es))).
  apply serves_events; [exact P|exact B|]. constructor. exact Q.
Qed.

Lemma told_dispatch r : dispatch (event_of r) = [told r].
Proof. destruct r; reflexivity. Qed.
Lemma told_all rs : concat (map dispatch (map event_of rs)) = map told rs.
Proof. induction rs as [|r rs IH]; [reflexivity|]. cbn [map concat]. rewrite told_dispatch, IH. reflexivity. Qed.

Lemma reports_delivered zone i rs : Forall (fun r => proper_event zone (event_of r) /\ brief zone (event_of r)) rs ->
  solid i -> quiet (in_err i) -> contents i = concat (map (fun r => event_line zone (event_of r)) rs) ->
  must_run (Ret i) = Ret (map told rs, Returned).
Proof.
  intros H S Q C. rewrite <- told_all. apply (delivered zone i (map event_of rs)); try assumption.
  - apply Forall_map. eapply Forall_impl; [|exact H]. intros r [K _]. exact K.
  - apply Forall_map. eapply Forall_impl; [|exact H]. intros r [_ K]. exact K.
  - apply forall_handled. reflexivity.
  - rewrite map_map. exact C.
Qed.

(** A stream that ends within a line *)
Lemma cut_short zone i es css e p q : Forall (proper_event zone) es -> Forall (brief zone) es -> Forall2 handled es css ->
  proper_event zone e -> brief zone e -> solid i ->
  event_text zone e = p ++ q -> p <> [] -> contents i = concat (map (event_line zone) es) ++ p ->
  (q <> [] -> must_run (Ret i) = Ret (concat css, Fatal ErrJSON)) /\
  (q = [] -> quiet (in_err i) -> must_run (Ret i) = Ret (concat css ++ dispatch e, Returned)).
Proof.
  intros P B H Pe Be S E Np C. apply forall_handled in H. subst css.
  destruct (event_text_ok zone e Pe) as (_ & U & N1 & N2).
  assert (F : fits (in_eager i) (p, false) = true).
  { unfold fits. cbn [fst]. apply orb_true_iff. left. apply N.ltb_lt. unfold brief in Be. rewrite E, app_length in Be. lia. }
  assert (N1' : ~ In x0a p) by (intros K; apply N1; rewrite E; apply in_or_app; left; exact K).
  assert (N2' : ~ In x0d p) by (intros K; apply N2; rewrite E; apply in_or_app; left; exact K).
  split.
  - intros Nq. apply client_iff; [exact S|]. rewrite C, (stream_lines zone es p P), <- (app_nil_r (concat (map dispatch es))).
    apply serves_events; [exact P|exact B|]. rewrite lines_part by assumption. apply serves_bad; [exact F|].
    cbn [fst]. rewrite no_cr by exact N2'. exact (event_cut zone e p q Pe E Nq).
  - intros -> Q. rewrite app_nil_r in E. subst p. apply client_iff; [exact S|].
    rewrite C, (stream_lines zone es _ P). apply serves_events; [exact P|exact B|]. rewrite lines_part by assumption.
    rewrite <- (app_nil_r (dispatch e)). eapply serves_line; [exact F|cbn [fst]; rewrite no_cr by exact N2'; exact U|apply handled_dispatch|].
    constructor. exact Q.
Qed.

(** ** The events of connections *)
Definition ascii (c : byte) : Prop := (bval c < 128)%N.
Lemma dec_ascii n : Forall ascii (dec n).
Proof. eapply Forall_impl; [|apply (dec_digits n)]. intros c. destruct c; intros H; try discriminate H; reflexivity. Qed.
Lemma hex_digit_ascii n : (n < 16)%N -> ascii (hex_digit n).
Proof. intros H. unfold ascii, hex_digit. destruct (N.ltb_spec n 10); rewrite bval_small by lia; lia. Qed.
Lemma append_hex_ascii x : (x < 65536)%N -> Forall ascii (append_hex x) /\ length (append_hex x) <= 4.
Proof.
  intros H. unfold append_hex.
  assert (x / 4096 < 16)%N by (apply N.div_lt_upper_bound; lia).
  pose proof (N.mod_lt (x / 256) 16). pose proof (N.mod_lt (x / 16) 16). pose proof (N.mod_lt x 16).
  split.
  - repeat (apply Forall_app; split); repeat match goal with |- context [if ?b then _ else _] => destruct b end;
      repeat constructor; apply hex_digit_ascii; lia.
  - rewrite !app_length. repeat match goal with |- context [if ?b then _ else _] => destruct b end; cbn [length]; lia.
Qed.
Lemma groups16_small ip : Forall (fun x => (x < 65536)%N) (groups16 ip).
Proof.
  assert (G : forall n ip, length ip <= n -> Forall (fun x => (x < 65536)%N) (groups16 ip)).
  { induction n as [|n IH]; intros [|a [|b r]] L; cbn [groups16 length] in *; try constructor; try lia.
    - pose proof (bval_lt a). pose proof (bval_lt b). lia.
    - apply IH. lia. }
  apply (G _ ip (Nat.le_refl _)).
Qed.
Definition fine (l : bytes) : Prop := Forall ascii l /\ length l <= 4.
Lemma colons_ascii g : Forall fine g -> Forall ascii (colons g) /\ length (colons g) <= 5 * length g.
Proof.
  induction 1 as [|a l [Ha La] _ [IH L]]; [split; [constructor|cbn; lia]|]. destruct l as [|b l].
  - cbn [colons length]. split; [exact Ha|lia].
  - change (colons (a :: b :: l)) with (a ++ x3a :: colons (b :: l)). split.
    + apply Forall_app. split; [exact Ha|]. constructor; [reflexivity|exact IH].
    + rewrite app_length. cbn [length] in *. lia.
Qed.
Lemma groups16_length n : forall ip, length ip <= 2 * n -> length (groups16 ip) <= n.
Proof. induction n as [|n IH]; intros [|a [|b r]] L; cbn [groups16 length] in *; try lia. specialize (IH r). lia. Qed.
Lemma string6_ascii ip : length ip <= 16 -> Forall ascii (string6 ip) /\ length (string6 ip) <= 82.
Proof.
  intros L. unfold string6.
  assert (G : Forall fine (map append_hex (groups16 ip))).
  { apply Forall_map. eapply Forall_impl; [|apply groups16_small]. intros x H. apply append_hex_ascii, H. }
  assert (K : length (map append_hex (groups16 ip)) <= 8) by (rewrite map_length; apply groups16_length; lia).
  destruct (longest_run 0 (groups16 ip) (0, 0)) as [i [|l]].
  - destruct (colons_ascii _ G). split; [assumption|lia].
  - assert (F1 : Forall fine (firstn i (map append_hex (groups16 ip)))).
    { rewrite <- (firstn_skipn i (map append_hex (groups16 ip))) in G. apply Forall_app in G. apply G. }
    assert (F2 : Forall fine (skipn (i + S l) (map append_hex (groups16 ip)))).
    { rewrite <- (firstn_skipn (i + S l) (map append_hex (groups16 ip))) in G. apply Forall_app in G. apply G. }
    destruct (colons_ascii _ F1) as [A1 L1]. destruct (colons_ascii _ F2) as [A2 L2]. split.
    + apply Forall_app. split; [exact A1|]. constructor; [reflexivity|]. constructor; [reflexivity|exact A2].
    + rewrite firstn_length in L1. rewrite skipn_length in L2. rewrite !app_length. cbn [length]. lia.
Qed.
Lemma string4_ascii ip : Forall ascii (string4 ip) /\ length (string4 ip) <= 15.
Proof.
  unfold string4. split.
  - repeat first [apply Forall_app; split | apply dec_ascii | constructor]; reflexivity.
  - assert (D : forall i, length (dec (bget i ip)) <= 3).
    { intros i. apply dec_length; [lia|]. unfold bget. pose proof (bval_lt (nth i ip x00)). change (10 ^ N.of_nat 3)%N with 1000%N. lia. }
    rewrite !app_length. cbn [length]. pose proof (D 0). pose proof (D 1). pose proof (D 2). pose proof (D 3). lia.
Qed.
Lemma ip_string_ascii a : length a = 4 \/ length a = 16 -> Forall ascii (ip_string a) /\ length (ip_string a) <= 82.
Proof.
  intros H. unfold ip_string. destruct a as [|x a0]; [destruct H as [H|H]; discriminate H|]. set (a := x :: a0) in *.
  replace (negb (length a =? 4) && negb (length a =? 16)) with false by (destruct H as [->| ->]; reflexivity).
  destruct (to4 a).
  - destruct (string4_ascii b). split; [assumption|lia].
  - apply string6_ascii. lia.
Qed.
Lemma sock_ip_ascii a : length a = 16 -> Forall ascii (ip_string (Inetdiag.ip a)) /\ length (ip_string (Inetdiag.ip a)) <= 82.
Proof. intros H. apply ip_string_ascii. unfold Inetdiag.ip. destruct (is_ipv6 a); [right; exact H|left; rewrite firstn_length; lia]. Qed.

Lemma ascii_utf8 l : Forall ascii l -> utf8 l. Proof. intros H. apply utf8_ascii, H. Qed.
Lemma cookie_range x : (x < two64)%N -> (-9223372036854775808 <= to_int64 x <= 9223372036854775807)%Z.
Proof. unfold two64, to_int64. intros H. destruct (N.ltb_spec x 9223372036854775808); lia. Qed.

Lemma sockid_proper raw m : parse_idm (Some raw) = Ret m -> proper_sockid (get_sockid (idiag_id m)).
Proof.
  intros H. apply parse_idm_ret in H. destruct H as (b & E & L & ->). injection E as <-.
  assert (B : forall o n, o + n <= 72 -> length (sub o n raw) = n) by (intros o n K; apply sub_length; lia).
  unfold proper_sockid, get_sockid. cbn [sid_sport sid_dport sid_src sid_dst sid_if sid_cookie load_idm idiag_id].
  unfold sport, dport, interface, cookie, src_ip, dst_ip. cbn [b_sport b_dport b_src b_dst b_if b_cookie].
  change (id_off "IDiagSPort") with 4. change (id_off "IDiagDPort") with 6. change (id_off "IDiagSrc") with 8. change (id_off "IDiagDst") with 24.
  change (id_off "IDiagIf") with 40. change (id_off "IDiagCookie") with 44.
  split; [|split; [|split; [|split; [|split]]]].
  - pose proof (be_lt (sub 4 2 raw)) as K. rewrite B in K by lia. exact K.
  - pose proof (be_lt (sub 6 2 raw)) as K. rewrite B in K by lia. exact K.
  - apply ascii_utf8, sock_ip_ascii, B. lia.
  - apply ascii_utf8, sock_ip_ascii, B. lia.
  - pose proof (be_lt (sub 40 4 raw)) as K. rewrite B in K by lia. exact K.
  - apply cookie_range. pose proof (le_lt (sub 44 8 raw)) as K. rewrite B in K by lia. exact K.
Qed.
Lemma sockid_texts raw m : parse_idm (Some raw) = Ret m ->
  length (sid_src (get_sockid (idiag_id m))) <= 82 /\ length (sid_dst (get_sockid (idiag_id m))) <= 82.
Proof.
  intros H. apply parse_idm_ret in H. destruct H as (b & E & L & ->). injection E as <-.
  assert (B : forall o n, o + n <= 72 -> length (sub o n raw) = n) by (intros o n K; apply sub_length; lia).
  split; apply sock_ip_ascii, B.
  - change (8 + 16 <= 72). lia.
  - change (24 + 16 <= 72). lia.
Qed.


(** ** How long lines can be *)

Lemma sockid_json_length id : proper_sockid id ->
  length (render (sockid_json id)) <= 6 * (length (sid_src id) + length (sid_dst id)) + 200.
Proof.
  intros (P1 & P2 & _ & _ & P5 & P6). unfold sockid_json. cbn [render map join fst snd].
  pose proof (dec_length_64 (sid_sport id) ltac:(lia)). pose proof (dec_length_64 (sid_dport id) ltac:(lia)).
  pose proof (dec_length_64 (sid_if id) ltac:(lia)). pose proof (decZ_length (sid_cookie id) P6).
  pose proof (quote_length (sid_src id)). pose proof (quote_length (sid_dst id)).
  unfold in_quotes. repeat (cbn [length app]; rewrite ?app_length).
  change (length (str "SPort")) with 5. change (length (str "DPort")) with 5. change (length (str "SrcIP")) with 5.
  change (length (str "DstIP")) with 5. change (length (str "Interface")) with 9. change (length (str "Cookie")) with 6.
  lia.
Qed.
Lemma event_text_length zone e : proper_event zone e ->
  length (event_text zone e) <= 6 * (length (fe_uuid e) + match fe_id e with Some id => length (sid_src id) + length (sid_dst id) | None => 0 end) + 400.
Proof.
  intros (P1 & P2 & P3 & P4). unfold event_text, marshal_event, event_json, time_json.
  apply time_json_some in P2. destruct P2 as [s Es]. rewrite Es. pose proof (time_length _ _ _ Es).
  pose proof (decZ_length _ P1). pose proof (quote_length (fe_uuid e)).
  assert (I : length (render (match fe_id e with Some id => sockid_json id | None => JNull end)) <=
    6 * match fe_id e with Some id => length (sid_src id) + length (sid_dst id) | None => 0 end + 200).
  { destruct (fe_id e) as [id|]; [apply sockid_json_length, P4; reflexivity|]. change (length (render JNull)) with 4. lia. }
  set (j := match fe_id e with Some id => sockid_json id | None => JNull end) in *. clearbody j.
  cbn [render map join fst snd]. unfold in_quotes. repeat (cbn [length app]; rewrite ?app_length).
  change (length (str "Event")) with 5. change (length (str "Timestamp")) with 9. change (length (str "UUID")) with 4. change (length (str "ID")) with 2.
  lia.
Qed.
Lemma brief_event zone e : proper_event zone e -> (N.of_nat (length (fe_uuid e)) <= 10000)%N ->
  (forall id, fe_id e = Some id -> length (sid_src id) <= 82 /\ length (sid_dst id) <= 82) -> brief zone e.
Proof.
  intros P U I. unfold brief. pose proof (event_text_length zone e P) as L.
  destruct (fe_id e) as [id|]; [destruct (I id eq_refl)|]; lia.
Qed.
