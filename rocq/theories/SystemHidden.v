(** Where the lines of the files come from. *)
From stdpp Require Import gmap.
From Coq Require Import NArith ZArith Lia.
From Verif Require Import GoBase GoBaseFacts GoTime Inetdiag Netlink SpecNetlink SpecCompare RecordFacts CompareFacts
  Cache SpecCache CacheFacts Saver SpecSaver SpecSystem SaverSteps SaverFiles SaverJobs SaverBlocks SaverRuns SaverHistory
  System SystemViews SystemJobs SystemInv SystemFiles SystemRefine SystemEnd.

Section Hidden.
Variables (w : world) (cf : config) (cap : nat) (anon : bytes -> bytes) (line : archival -> bytes) (hline : metadata -> bytes).
Hypothesis Hlen : forall x, length (anon x) = length x.
Hypothesis Hn : 1 <= nmarsh cf.
Variable bs : list block.
Notation step := (step w cf cap anon line hline).
Notation reachable := (reachable w cf cap anon line hline bs).

Definition all_accepted : list archival := concat (map (accepted cf) bs).
Definition from_bs (j : job) : Prop :=
  match j with
  | JBlock b => b ∈ bs
  | JMsg t m => forall msg ar, m = Some msg -> make_archival_record msg (excl cf) = Ret (Some ar) -> mkar t (ar_raw ar) (ar_attrs ar) (ar_meta ar) ∈ all_accepted
  | _ => True
  end.
Definition inv6 (y : sys) : Prop := Forall from_bs (y_jobs y) /\ (forall c, c ∈ sent (s_log (y_saver y)) -> c_ar c ∈ all_accepted).
Lemma accepted_in b r : b ∈ bs -> r ∈ accepted cf b -> r ∈ all_accepted.
Proof.
  intros Hb Hr. unfold all_accepted. apply elem_of_list_In, in_concat. exists (accepted cf b). split; [|by apply elem_of_list_In].
  apply in_map. by apply elem_of_list_In.
Qed.
Lemma inv6_init : inv6 (initial cf bs).
Proof.
  split; [|intros c H; by apply elem_of_nil in H]. apply Forall_app. split; [|by repeat constructor].
  apply Forall_forall. intros j Hj. apply elem_of_list_In, in_map_iff in Hj as (b & <- & Hb). by apply elem_of_list_In.
Qed.
Lemma inv6_step y y' : inv6 y -> step y y' -> inv6 y'.
Proof.
  intros (J & S) H. destruct (step_saver _ _ _ _ _ _ _ _ H) as [(j & js & view & A & Pc & E & V & ->)|(E1 & E2 & _)].
  2:{ unfold inv6. rewrite E1, E2. done. }
  pose proof (alive_saver _ A Pc) as Hd. rewrite E in J. inversion J as [|? ? J1 J2]; subst. unfold inv6. cbn [y_jobs y_saver with_saver]. split.
  - apply Forall_app. split; [|exact J2]. destruct j as [b|t m|t|km|t| |k|]; cbn [run_job snd]; try (by constructor).
    + cbn in J1.
      assert (G : forall t ms, (forall r, r ∈ accepted_of (excl cf) t ms -> r ∈ accepted cf b) -> Forall from_bs (map (JMsg t) ms)).
      { intros t ms Hms. apply Forall_forall. intros j Hj. apply elem_of_list_In, in_map_iff in Hj as (m & <- & Hm). intros msg ar -> Ear.
        eapply accepted_in; [exact J1|]. apply Hms. apply elem_of_list_omap. exists (Some msg). split; [by apply elem_of_list_In|]. rewrite Ear. reflexivity. }
      apply Forall_app. split; [apply G; intros r Hr; apply elem_of_app; by left|].
      apply Forall_app. split; [apply G; intros r Hr; apply elem_of_app; by right|]. by repeat constructor.
    + destruct (end_round w (y_saver y)). cbn [snd]. apply Forall_app. split; [|by repeat constructor].
      apply Forall_forall. intros j Hj. apply elem_of_list_In, in_map_iff in Hj as (m & <- & Hm). exact Logic.I.
    + cbn. apply Forall_app. split; [|by repeat constructor].
      apply Forall_forall. intros j Hj. apply elem_of_list_In, in_map_iff in Hj as (m & <- & Hm). exact Logic.I.
  - destruct (match j with JMsg _ _ => true | _ => false end) eqn:Ej.
    + destruct j as [b|t m|t|km|t| |k|]; try discriminate Ej. cbn [run_job fst]. intros c Hc.
      destruct (handle_effect w cf view t m (y_saver y)) as [(e & L & Se & _)|(ar & (msg & ar0 & Em & Ear & ->) & _ & _ & e & L & _ & Se)].
      * rewrite L, sent_app, Se, app_nil_r in Hc. by apply S.
      * rewrite L, sent_app in Hc. apply elem_of_app in Hc as [Hc|Hc]; [by apply S|].
        destruct Se as [Se|Se]; rewrite Se in Hc; [by apply elem_of_nil in Hc|]. apply elem_of_list_singleton in Hc as ->. exact (J1 msg ar0 Em Ear).
    + destruct (job_effect w cf view j (y_saver y) Hd) as (_ & e & L & [(_ & Se & _)|(ar & Hu & _)]).
      * intros c Hc. rewrite L, sent_app, Se, app_nil_r in Hc. by apply S.
      * exfalso. destruct j as [b|t m|t|km|t| |k|]; try discriminate Ej; cbn [run_job fst] in Hu.
        -- lia.
        -- destruct (end_round_effect w (y_saver y)) as ((? & _ & _ & _ & _ & P) & _). destruct (end_round w (y_saver y)) as [r s1]. cbn in P, Hu. lia.
        -- destruct (close_one_adds w cf view km (y_saver y)) as (? & _ & _ & _ & _ & P). lia.
        -- destruct (report_adds t (y_saver y)) as (? & _ & _ & _ & _ & P). lia.
        -- unfold range_keys in Hu. cbn in Hu. lia.
        -- unfold end_conn_alive in Hu. rewrite Hd in Hu. destruct (end_conn_adds w cf k (y_saver y)) as (? & _ & _ & _ & _ & P). lia.
        -- destruct (close_chans_log cf (y_saver y) Hd) as (_ & _ & P & _). lia.
Qed.
Lemma sent_accepted y c : reachable y -> c ∈ sent (s_log (y_saver y)) -> c_ar c ∈ all_accepted.
Proof.
  intros H. cut (inv6 y); [intros [_ S]; apply S|]. apply (rtc_ind_r (R := step) inv6 (initial cf bs)).
  - apply inv6_init.
  - intros y1 y2 _ St I. by eapply inv6_step.
  - exact H.
Qed.
(** A file holds a header line and lines of anonymized records. *)
Lemma only_hidden y wr f : reachable y -> y_files y !! wr = Some f -> exists md recs rest,
  f_data f ++ rest = (hline md ++ nl) ++ concat (map (fun r => line r ++ nl) recs) /\
  Forall (fun r => exists r0, r0 ∈ all_accepted /\ hidden anon r0 = Some r) recs.
Proof.
  intros Hr Hf. pose proof (files_prefix w cf cap anon line hline Hlen Hn bs y wr Hr) as Hp. rewrite Hf in Hp. destruct Hp as [_ [rest Hp]].
  destruct (all_invariants w cf cap anon line hline Hlen Hn bs y Hr) as (I1 & _).
  destruct (exec_prefix y wr) as [e Ee].
  assert (G : exists md recs rest', contents anon line hline wr (s_log (y_saver y)) ++ rest' = (hline md ++ nl) ++ concat (map (fun r => line r ++ nl) recs) /\
    Forall (fun r => exists r0, r0 ∈ all_accepted /\ hidden anon r0 = Some r) recs).
  { unfold contents. destruct (file_histories w cf (y_saver y) wr (proj1 I1)) as [F|(cl & q0 & k & md & recs & path' & F & _)].
    - rewrite F. exists (mkmeta [] 0 0), [], (hline (mkmeta [] 0 0) ++ nl). rewrite app_nil_r. split; [done|constructor].
    - exists md, (omap (fun c => hidden anon (c_ar c)) recs), []. rewrite app_nil_r. rewrite F. unfold written. split.
      + cbn [app map concat file_line]. unfold nl. f_equal. rewrite map_app, concat_app.
        assert (concat (map (file_line anon line hline) (if cl then [ASend q0 None wr] else [])) = []) as -> by (by destruct cl). rewrite app_nil_r.
        clear F. induction recs as [|c recs IH]; [done|]. cbn [map concat omap list_omap file_line]. rewrite IH. destruct (hidden anon (c_ar c)); done.
      + apply Forall_forall. intros r H. apply elem_of_list_omap in H as (c & Hc & Eh). exists (c_ar c). split; [|exact Eh].
        eapply sent_accepted; [exact Hr|]. apply (sent_in q0 c wr).
        assert (Hin : ASend q0 (Some c) wr ∈ file_actions wr (s_log (y_saver y))).
        { rewrite F. unfold written. apply elem_of_app. right. apply elem_of_app. left. apply elem_of_list_In, (in_map (fun m => ASend q0 (Some m) wr)). by apply elem_of_list_In. }
        unfold file_actions in Hin. apply elem_of_list_In, List.filter_In in Hin as [Hin _]. by apply elem_of_list_In. }
  destruct G as (md & recs & rest' & G & Fo). exists md, recs, (rest ++ concat (map (file_line anon line hline) e) ++ rest'). split; [|exact Fo].
  rewrite <- G, app_assoc, <- Hp. unfold contents. by rewrite Ee, map_app, concat_app, app_assoc.
Qed.
End Hidden.

(** ** The statements of P_System.v *)
Lemma file_prefix w cf cap anon line hline : (forall x, length (anon x) = length x) -> 1 <= nmarsh cf ->
  forall bs, all_comparable cf bs -> forall y, reachable w cf cap anon line hline bs y -> forall wr f,
  y_files y !! wr = Some f ->
  ACreate wr (f_path f) ∈ s_log (message_saver_loop w cf bs) /\
  exists rest, contents anon line hline wr (s_log (message_saver_loop w cf bs)) = f_data f ++ rest.
Proof.
  intros Hl Hn bs Hc y Hr wr f Hf. destruct (log_prefix w cf cap anon line hline Hl Hn bs Hc y Hr) as [e ->]. destruct (executed_log y) as [e' ->].
  pose proof (files_prefix w cf cap anon line hline Hl Hn bs y wr Hr) as Hp. rewrite Hf in Hp. destruct Hp as [Hin [rest Hp]]. split.
  - apply elem_of_app. left. apply elem_of_app. left. exact Hin.
  - unfold contents in *. rewrite !file_actions_app, !map_app, !concat_app, Hp, <- !app_assoc. eexists. reflexivity.
Qed.
Lemma same_end w cf cap anon line hline : (forall x, length (anon x) = length x) -> 1 <= nmarsh cf ->
  forall bs, all_comparable cf bs -> forall y, reachable w cf cap anon line hline bs y -> finished y ->
  y_saver y = message_saver_loop w cf bs /\
  forall wr, y_files y !! wr = final_file anon line hline wr (s_log (message_saver_loop w cf bs)).
Proof.
  intros Hl Hn bs Hc y Hr Hf. pose proof Hf as (P & J & Pc & _).
  assert (E : y_saver y = message_saver_loop w cf bs) by (eapply log_final; [exact Hl|exact Hn|exact Hc|exact Hr|left; exact J]).
  split; [exact E|]. intros wr. rewrite (files_complete w cf cap anon line hline Hl Hn bs y wr Hr); [|intros q m; by apply finished_pending].
  by rewrite (executed_all y Pc), E.
Qed.
Lemma no_deadlock w cf cap anon line hline : (forall x, length (anon x) = length x) -> 1 <= nmarsh cf ->
  forall bs, all_comparable cf bs -> 1 <= cap -> Forall (parses cf) bs -> fair_order w ->
  forall y, reachable w cf cap anon line hline bs y -> finished y \/ exists y', step w cf cap anon line hline y y'.
Proof.
  intros Hl Hn bs Hc Hcap Hp Hf y Hr. destruct (progress w cf cap anon line hline Hl Hn bs y Hcap Hr) as [H|[H|[H _]]]; [by right|by left|].
  rewrite (never_dead w cf cap anon line hline Hl Hn bs Hc Hp Hf y Hr) in H. discriminate H.
Qed.
Lemma wait_complete w cf cap anon line hline : (forall x, length (anon x) = length x) -> 1 <= nmarsh cf ->
  forall bs, all_comparable cf bs -> Forall (parses cf) bs -> fair_order w ->
  forall y, reachable w cf cap anon line hline bs y -> y_wg y = 0 ->
  finished y /\ forall wr f, y_files y !! wr = Some f ->
    f_open f = false /\ f_data f = contents anon line hline wr (s_log (message_saver_loop w cf bs)).
Proof.
  intros Hl Hn bs Hc Hp Hf y Hr Hw. pose proof (wait_returns w cf cap anon line hline Hl Hn bs y Hr Hw) as Fi. split; [exact Fi|].
  destruct (at_end w cf cap anon line hline Hl Hn bs Hc Hp Hf y Hr Fi) as (_ & G & Cl). intros wr f Hwr. split; [exact (Cl wr f Hwr)|].
  rewrite G in Hwr. unfold final_file in Hwr. destruct (file_actions wr _) as [|a l]; [discriminate Hwr|]. destruct a; try discriminate Hwr. injection Hwr as <-. reflexivity.
Qed.
Lemma hidden_addresses anon r r' : (forall x, length (anon x) = length x) -> hidden anon r = Some r' ->
  (hdr_family (header r) = 10%N /\ at_ 8 16 (header r') = anon (at_ 8 16 (header r)) /\ at_ 24 16 (header r') = anon (at_ 24 16 (header r))) \/
  (hdr_family (header r) = 2%N /\ at_ 8 4 (header r') = anon (at_ 8 4 (header r)) /\ at_ 24 4 (header r') = anon (at_ 24 4 (header r))).
Proof.
  intros Hl. unfold hidden, hidden_header. set (raw := header r). destruct (Nat.ltb_spec (length raw) 72) as [L|L]; [discriminate|].
  assert (A : forall (a b c : bytes) n, length a = 8 -> length b = n -> at_ 8 n (a ++ b ++ c) = b).
  { intros a b c n La <-. unfold at_. rewrite <- La, skipn_app, skipn_all, Nat.sub_diag, skipn_O. cbn [app].
    rewrite firstn_app, firstn_all, Nat.sub_diag, firstn_O. apply app_nil_r. }
  assert (B : forall (a b d c e : bytes) n, length a + length b + length d = 24 -> length c = n -> at_ 24 n (a ++ b ++ d ++ c ++ e) = c).
  { intros a b d c e n Ls <-. unfold at_. rewrite !app_assoc. rewrite <- (app_assoc _ c e). assert (Lx : length ((a ++ b) ++ d) = 24) by (rewrite !app_length; lia).
    rewrite skipn_app, Lx, Nat.sub_diag, skipn_O, skipn_all2 by lia. cbn [app]. rewrite firstn_app, firstn_all, Nat.sub_diag, firstn_O. apply app_nil_r. }
  assert (L0 : length (at_ 0 8 raw) = 8) by (apply at_len; lia).
  destruct (N.eqb_spec (hdr_family raw) 10) as [E|E]; [|destruct (N.eqb_spec (hdr_family raw) 2) as [E2|E2]; [|discriminate]]; intros [= <-]; unfold header; cbn [ar_raw].
  - left. split; [exact E|]. assert (L1 : length (anon (at_ 8 16 raw)) = 16) by (rewrite Hl; apply at_len; lia).
    assert (L2 : length (anon (at_ 24 16 raw)) = 16) by (rewrite Hl; apply at_len; lia). split.
    + apply A; [exact L0|exact L1].
    + apply (B _ _ []); [rewrite L0, L1; reflexivity|exact L2].
  - right. split; [exact E2|]. assert (L1 : length (anon (at_ 8 4 raw)) = 4) by (rewrite Hl; apply at_len; lia).
    assert (L2 : length (anon (at_ 24 4 raw)) = 4) by (rewrite Hl; apply at_len; lia). assert (L3 : length (at_ 12 12 raw) = 12) by (apply at_len; lia). split.
    + apply A; [exact L0|exact L1].
    + apply B; [rewrite L0, L1, L3; reflexivity|exact L2].
Qed.

(** ** A scheduler: marshallers first *)
Section Scheduler.
Variables (w : world) (cf : config) (cap : nat) (anon : bytes -> bytes) (line : archival -> bytes) (hline : metadata -> bytes).
Notation step := (step w cf cap anon line hline).
Definition marsh_move (q : nat) (m : marsh) (y : sys) : option sys :=
  match m_phase m with
  | Idle => match m_chan m with
            | t :: ts => Some (with_marsh q (mkmarsh ts (m_closed m) (Holding t)) y)
            | [] => if m_closed m then Some (match y_wg y with O => panicked y | S n => with_wg n (goes_to q m Finished y) end) else None
            end
  | Holding (None, wr) => Some (goes_to q m Idle (with_files (close_file wr (y_files y)) y))
  | Holding (Some c, wr) =>
      match anonymize anon (match ar_raw (current (y_heap y) c) with Some b => b | None => [] end) with
      | Ret raw => Some (goes_to q m (Anonymized c wr) (with_heap (<[c_uid c := raw]> (y_heap y)) y))
      | Fail _ => Some (goes_to q m Idle y)
      | _ => None
      end
  | Anonymized c wr => Some (goes_to q m (Rendered c (line (current (y_heap y) c)) wr) y)
  | Rendered c b wr => Some (goes_to q m (Newline c wr) (with_files (write wr b (y_files y)) y))
  | Newline c wr => Some (goes_to q m Idle (with_files (write wr nl (y_files y)) y))
  | Finished => None
  end.
Definition saver_move (y : sys) : option sys :=
  match s_log (y_saver y) !! y_pc y with
  | Some a => match exec cap hline a y with Some y' => Some (with_pc (S (y_pc y)) y') | None => None end
  | None =>
      if Nat.eqb (y_pc y) (length (s_log (y_saver y))) then
        match y_jobs y with
        | j :: js => let r := run_job w cf (current (y_heap y)) j (y_saver y) in Some (with_saver r.1 (r.2 ++ js) y)
        | [] => None
        end
      else None
  end.
Definition aliveb (y : sys) : bool :=
  negb (y_panic y) && negb (s_dead (y_saver y) && Nat.eqb (y_pc y) (length (s_log (y_saver y)))).
Definition move (who : option nat) (y : sys) : option sys :=
  if aliveb y then
    match who with
    | None => saver_move y
    | Some q => match y_marsh y !! q with Some m => marsh_move q m y | None => None end
    end
  else None.
Lemma aliveb_alive y : aliveb y = true -> alive y.
Proof.
  unfold aliveb, alive. intros H. apply andb_prop in H as [H1 H2]. split; [by apply negb_true_iff|]. intros [E1 E2]. rewrite E1, E2, Nat.eqb_refl in H2. discriminate H2.
Qed.
Lemma move_step who y y' : move who y = Some y' -> step y y'.
Proof.
  unfold move. destruct (aliveb y) eqn:A; [|discriminate]. apply aliveb_alive in A. destruct who as [q|].
  - destruct (y_marsh y !! q) as [m|] eqn:M; [|discriminate]. unfold marsh_move. destruct (m_phase m) as [|[[c|] wr]|c wr|c b wr|c wr|] eqn:Ph.
    + destruct (m_chan m) as [|t ts] eqn:C; [destruct (m_closed m) eqn:Cl; [|discriminate]|]; intros [= <-]; [by eapply st_finish|rewrite <- Cl || idtac; by eapply st_take].
    + destruct (anonymize anon _) as [raw|e| |] eqn:R; intros H; [| |discriminate H|discriminate H]; injection H as <-.
      * eapply st_anon; [exact A|exact M|exact Ph|exact R].
      * eapply st_skip; [exact A|exact M|exact Ph|exact R].
    + intros [= <-]. by eapply st_close.
    + intros [= <-]. by eapply st_render.
    + intros [= <-]. by eapply st_write.
    + intros [= <-]. by eapply st_newline.
    + discriminate.
  - unfold saver_move. destruct (s_log (y_saver y) !! y_pc y) as [a|] eqn:L.
    + destruct (exec cap hline a y) eqn:E; [|discriminate]. intros [= <-]. by eapply st_act.
    + destruct (Nat.eqb_spec (y_pc y) (length (s_log (y_saver y)))) as [E|]; [|discriminate]. destruct (y_jobs y) as [|j js] eqn:J; [discriminate|].
      intros [= <-]. eapply st_job; [exact A|exact E|exact J|]. intros c. apply sees_refl.
Qed.
(** Run [n] steps; [pick] chooses among the goroutines, the first that can move
    does. *)
Fixpoint first_move (l : list (option nat)) (y : sys) : option sys :=
  match l with
  | [] => None
  | who :: l' => match move who y with Some y' => Some y' | None => first_move l' y end
  end.
Fixpoint schedule (pick : nat -> list (option nat)) (n : nat) (y : sys) : sys :=
  match n with
  | O => y
  | S n' => match first_move (pick n) y with Some y' => schedule pick n' y' | None => y end
  end.
Lemma first_move_step l y y' : first_move l y = Some y' -> step y y'.
Proof. induction l as [|who l IH]; [discriminate|]. cbn. destruct (move who y) eqn:E; [intros [= <-]; by eapply move_step|exact IH]. Qed.
Lemma schedule_steps pick n y : rtc step y (schedule pick n y).
Proof.
  revert y. induction n as [|n IH]; intros y; [apply rtc_refl|]. cbn [schedule]. destruct (first_move (pick (S n)) y) as [y'|] eqn:E; [|apply rtc_refl].
  eapply rtc_l; [by eapply first_move_step|apply IH].
Qed.
End Scheduler.
