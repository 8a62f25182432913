(** Invariants of the program with all its goroutines. *)
From stdpp Require Import gmap.
From Coq Require Import NArith ZArith Lia.
From Verif Require Import GoBase GoBaseFacts GoTime Inetdiag Netlink SpecNetlink SpecCompare RecordFacts CompareFacts
  Cache SpecCache CacheFacts Saver SpecSaver SpecSystem SaverSteps SaverFiles SaverJobs SaverBlocks SaverRuns
  System SystemViews SystemJobs.

(** ** Anonymization *)
Lemma at_firstn n (l : bytes) : at_ 0 n l = firstn n l. Proof. reflexivity. Qed.
Lemma anonymize_hidden anon raw : (forall x, length (anon x) = length x) ->
  match anonymize anon raw with
  | Ret h => hidden_header anon raw = Some h
  | Fail _ => hidden_header anon raw = None
  | _ => False
  end.
Proof.
  intros Hl. unfold hidden_header. destruct (Nat.ltb_spec (length raw) 72) as [L|L]; [by rewrite anonymize_short|].
  destruct (N.eqb_spec (hdr_family raw) 10) as [E|E]; [by rewrite anonymize_v6|].
  destruct (N.eqb_spec (hdr_family raw) 2) as [E2|E2]; [by rewrite anonymize_v4|]. by rewrite anonymize_other.
Qed.
Lemma at_len o n (l : bytes) : o + n <= length l -> length (at_ o n l) = n.
Proof. intros H. unfold at_. rewrite firstn_length, skipn_length. lia. Qed.
Lemma hidden_header_outside anon raw h : (forall x, length (anon x) = length x) -> hidden_header anon raw = Some h ->
  72 <= length raw /\ length h = length raw /\ firstn 8 h = firstn 8 raw /\ skipn 40 h = skipn 40 raw.
Proof.
  intros Hl. unfold hidden_header. destruct (Nat.ltb_spec (length raw) 72) as [L|L]; [discriminate|].
  assert (L0 : length (at_ 0 8 raw) = 8) by (apply at_len; lia).
  destruct (N.eqb (hdr_family raw) 10).
  - intros [= <-]. assert (L1 : length (anon (at_ 8 16 raw)) = 16) by (rewrite Hl; apply at_len; lia).
    assert (L2 : length (anon (at_ 24 16 raw)) = 16) by (rewrite Hl; apply at_len; lia). split; [lia|].
    split; [rewrite !app_length, L0, L1, L2, skipn_length; lia|]. split.
    + rewrite firstn_app, L0, Nat.sub_diag, firstn_O, app_nil_r. rewrite at_firstn, firstn_firstn. reflexivity.
    + rewrite !app_assoc. rewrite skipn_app, !app_length, L0, L1, L2. cbn [Nat.add]. rewrite Nat.sub_diag, skipn_O.
      rewrite skipn_all2 by (rewrite !app_length; lia). reflexivity.
  - destruct (N.eqb (hdr_family raw) 2); [|discriminate]. intros [= <-].
    assert (L1 : length (anon (at_ 8 4 raw)) = 4) by (rewrite Hl; apply at_len; lia).
    assert (L2 : length (at_ 12 12 raw) = 12) by (apply at_len; lia).
    assert (L3 : length (anon (at_ 24 4 raw)) = 4) by (rewrite Hl; apply at_len; lia). split; [lia|].
    split; [rewrite !app_length, L0, L1, L2, L3, skipn_length; lia|]. split.
    + rewrite firstn_app, L0, Nat.sub_diag, firstn_O, app_nil_r. rewrite at_firstn, firstn_firstn. reflexivity.
    + rewrite !app_assoc. rewrite skipn_app, !app_length, L0, L1, L2, L3. cbn [Nat.add].
      rewrite (skipn_all2 (((at_ 0 8 raw ++ anon (at_ 8 4 raw)) ++ at_ 12 12 raw) ++ anon (at_ 24 4 raw))) by (rewrite !app_length; lia).
      cbn [app]. rewrite drop_drop. reflexivity.
Qed.

Section Inv.
Variables (w : world) (cf : config) (cap : nat) (anon : bytes -> bytes) (line : archival -> bytes) (hline : metadata -> bytes).
Hypothesis Hlen : forall x, length (anon x) = length x.
Variable bs : list block.
Notation step := (step w cf cap anon line hline).
Notation reachable := (reachable w cf cap anon line hline bs).

Definition executed (y : sys) : list action := firstn (y_pc y) (s_log (y_saver y)).
Lemma executed_log y : exists e, s_log (y_saver y) = executed y ++ e.
Proof. exists (skipn (y_pc y) (s_log (y_saver y))). symmetry. apply firstn_skipn. Qed.

(** ** The saver goroutine *)
(** Which record a pointer stands for. *)
Definition known (own : nat -> option archival) (c : cell) : Prop := own (c_uid c) = Some (c_ar c).
Definition records (own : nat -> option archival) (y : sys) : Prop :=
  (forall c, in_cache c (y_saver y) -> known own c) /\
  (forall k c, JClose (k, c) ∈ y_jobs y -> known own c) /\
  (forall c, c ∈ sent (s_log (y_saver y)) -> known own c) /\
  (forall u r, own u = Some r -> u < p_uid (s_pos (y_saver y))) /\
  NoDup (c_uid <$> sent (s_log (y_saver y))).
Definition inv1 (y : sys) : Prop :=
  reached w cf (y_saver y) /\ y_pc y <= length (s_log (y_saver y)) /\ exists own, records own y.

Lemma inv1_init : inv1 (initial cf bs).
Proof.
  split; [by apply rtc_refl|]. split; [cbn; lia|]. exists (fun _ => None). split; [|split; [|split; [|split]]].
  - intros c (k & [H|H]); cbn in H; by rewrite lookup_empty in H.
  - intros k c H. cbn in H. apply elem_of_app in H as [H|H].
    + apply elem_of_list_In, in_map_iff in H as (b & H & _). discriminate H.
    + apply elem_of_list_singleton in H. discriminate H.
  - intros c H. by apply elem_of_nil in H.
  - intros u r [=].
  - constructor.
Qed.

Lemma run_job_steps view j s : csteps w cf s (run_job w cf view j s).1.
Proof.
  destruct j as [b|t m|t|km|t| |k|]; cbn [run_job fst].
  - by apply csteps_refl.
  - apply handle_msg_steps.
  - pose proof (end_round_steps w cf s) as H. destruct (end_round w s). exact H.
  - apply close_one_steps.
  - apply report_steps.
  - unfold range_keys. cbn. by apply csteps_refl.
  - unfold end_conn_alive. destruct (s_dead s); [by apply csteps_refl|apply end_conn_steps].
  - unfold close_chans. destruct (s_dead s); [by apply csteps_refl|].
    eapply csteps_trans; [|apply csteps_quiet; reflexivity]. apply fold_steps. intros s2 q. by apply csteps_quiet.
Qed.
Lemma log_grows view j s : exists e, s_log (run_job w cf view j s).1 = s_log s ++ e.
Proof. exact (csteps_log w cf _ _ (run_job_steps view j s)). Qed.

(** What a job adds: either nothing to the records in use, or one new record. *)
Lemma close_chans_log s : s_dead s = false ->
  s_log (close_chans cf s) = s_log s ++ map ACloseChan (seq 0 (nmarsh cf)) ++ [ADone] /\
  s_cache (close_chans cf s) = s_cache s /\ p_uid (s_pos (close_chans cf s)) = p_uid (s_pos s) /\ s_dead (close_chans cf s) = false.
Proof.
  intros Hd. unfold close_chans. rewrite Hd. cbn [s_log emit s_cache s_pos s_dead].
  assert (G : forall l s, s_log (foldl (fun s q => emit (ACloseChan q) s) s l) = s_log s ++ map ACloseChan l /\
    s_cache (foldl (fun s q => emit (ACloseChan q) s) s l) = s_cache s /\ s_pos (foldl (fun s q => emit (ACloseChan q) s) s l) = s_pos s /\
    s_dead (foldl (fun s q => emit (ACloseChan q) s) s l) = s_dead s).
  { intros l. induction l as [|q l IH]; intros s1; [by rewrite app_nil_r|]. cbn [foldl map].
    destruct (IH (emit (ACloseChan q) s1)) as (G1 & G2 & G3 & G4). rewrite G1, G2, G3, G4. cbn. by rewrite <- app_assoc. }
  destruct (G (seq 0 (nmarsh cf)) s) as (G1 & G2 & G3 & G4). by rewrite G1, G2, G3, G4, <- app_assoc.
Qed.
Lemma job_effect view j s : s_dead s = false -> let s' := (run_job w cf view j s).1 in
  (forall k c, JClose (k, c) ∈ (run_job w cf view j s).2 -> in_cache c s) /\
  exists e, s_log s' = s_log s ++ e /\
  ((p_uid (s_pos s') = p_uid (s_pos s) /\ sent e = [] /\ (forall c, in_cache c s' -> in_cache c s)) \/
   (exists ar, let pm := mkcell (p_uid (s_pos s)) ar in p_uid (s_pos s') = S (p_uid (s_pos s)) /\
      (sent e = [] \/ sent e = [pm]) /\ (forall c, in_cache c s' -> c = pm \/ in_cache c s))).
Proof.
  intros Hd. destruct j as [b|t m|t|km|t| |k|]; cbn [run_job fst snd].
  - split.
    + intros k c H. exfalso. apply elem_of_app in H as [H|H]; [|apply elem_of_app in H as [H|H]].
      * apply elem_of_list_In, in_map_iff in H as (b' & H & _). discriminate H.
      * apply elem_of_list_In, in_map_iff in H as (b' & H & _). discriminate H.
      * apply elem_of_list_singleton in H. discriminate H.
    + exists []. rewrite app_nil_r. split; [done|]. left. done.
  - split; [intros k c H; by apply elem_of_nil in H|].
    destruct (handle_effect w cf view t m s) as [(e & L & S & _ & C & P)|(ar & _ & P & C & e & L & _ & S)].
    + exists e. split; [exact L|]. left. split; [exact P|]. split; [exact S|]. intros c Hc. unfold in_cache in *. by rewrite C in Hc.
    + exists e. split; [exact L|]. right. by exists ar.
  - destruct (end_round_effect w s) as ((e & L & S & _ & _ & P) & C & R).
    destruct (end_round w s) as [res s1]. cbn [fst snd] in *. split.
    + intros k c H. apply elem_of_app in H as [H|H].
      * apply elem_of_list_In, in_map_iff in H as ([k' c'] & H & Hin). injection H as <- <-. apply (R k' c'). by apply elem_of_list_In.
      * apply elem_of_list_singleton in H. discriminate H.
    + exists e. split; [exact L|]. left. split; [exact P|]. split; [exact S|exact C].
  - split; [intros k c H; by apply elem_of_nil in H|]. destruct (close_one_adds w cf view km s) as (e & L & S & _ & C & P).
    exists e. split; [exact L|]. left. split; [exact P|]. split; [exact S|]. intros c Hc. unfold in_cache in *. by rewrite C in Hc.
  - split; [intros k c H; by apply elem_of_nil in H|]. destruct (report_adds t s) as (e & L & S & _ & C & P).
    exists e. split; [exact L|]. left. split; [exact P|]. split; [exact S|]. intros c Hc. unfold in_cache in *. by rewrite C in Hc.
  - unfold range_keys. cbn [fst snd]. split.
    + intros k c H. exfalso. apply elem_of_app in H as [H|H].
      * apply elem_of_list_In, in_map_iff in H as (b' & H & _). discriminate H.
      * apply elem_of_list_singleton in H. discriminate H.
    + exists []. rewrite app_nil_r. split; [done|]. left. done.
  - split; [intros k' c H; by apply elem_of_nil in H|]. unfold end_conn_alive. rewrite Hd.
    destruct (end_conn_adds w cf k s) as (e & L & S & _ & C & P).
    exists e. split; [exact L|]. left. split; [exact P|]. split; [exact S|]. intros c Hc. unfold in_cache in *. by rewrite C in Hc.
  - split; [intros k' c H; by apply elem_of_nil in H|]. destruct (close_chans_log s Hd) as (L & C & P & _).
    eexists. split; [exact L|]. left. split; [exact P|]. split.
    + rewrite sent_app. change (sent [ADone]) with (@nil cell). rewrite app_nil_r. clear L. induction (seq 0 (nmarsh cf)) as [|x l IH]; [done|exact IH].
    + intros c Hc. unfold in_cache in *. by rewrite C in Hc.
Qed.

Lemma alive_saver y : alive y -> y_pc y = length (s_log (y_saver y)) -> s_dead (y_saver y) = false.
Proof. intros [_ A] P. destruct (s_dead (y_saver y)); [|done]. by destruct A. Qed.

Lemma exec_saver a y y' : exec cap hline a y = Some y' -> y_saver y' = y_saver y /\ y_jobs y' = y_jobs y /\ y_pc y' = y_pc y /\ y_heap y' = y_heap y.
Proof.
  destruct a; cbn [exec]; intros E; try (injection E as <-; done).
  - destruct (y_marsh y !! q); [|by injection E as <-]. destruct (m_closed _); [by injection E as <-|].
    destruct (_ <? _); [by injection E as <-|done].
  - destruct (y_marsh y !! q); [|by injection E as <-]. destruct (m_closed _); by injection E as <-.
  - destruct (y_wg y); by injection E as <-.
Qed.
(** Steps other than those of the saver goroutine leave the saver alone. *)
Lemma step_saver y y' : step y y' ->
  (exists j js view, alive y /\ y_pc y = length (s_log (y_saver y)) /\ y_jobs y = j :: js /\
     (forall c, sees (current (y_heap y) c) (view c)) /\
     y' = with_saver (run_job w cf view j (y_saver y)).1 ((run_job w cf view j (y_saver y)).2 ++ js) y) \/
  (y_saver y' = y_saver y /\ y_jobs y' = y_jobs y /\
   (y_pc y' = y_pc y \/ y_pc y' = S (y_pc y) /\ y_pc y < length (s_log (y_saver y)))).
Proof.
  intros H. destruct H as [y j js view A P J V|y a y' A L E|y q m t ts A M P C|y q m A M P C Cl|y q m wr A M P|y q m c wr raw A M P R
    |y q m c wr e A M P R|y q m c wr A M P|y q m c b wr A M P|y q m c wr A M P].
  1:{ left. exists j, js, view. done. }
  all: right.
  - destruct (exec_saver _ _ _ E) as (E1 & E2 & E3 & _). cbn. rewrite E1, E2. split; [done|]. split; [done|]. right. split; [done|].
    by eapply lookup_lt_Some.
  - by repeat split; left.
  - destruct (y_wg y); cbn; by repeat split; left.
  - by repeat split; left.
  - by repeat split; left.
  - by repeat split; left.
  - by repeat split; left.
  - by repeat split; left.
  - by repeat split; left.
Qed.

Lemma inv1_step y y' : inv1 y -> step y y' -> inv1 y'.
Proof.
  intros (R & Hpc & own & K1 & K2 & K3 & K4 & K5) H.
  destruct (step_saver _ _ H) as [(j & js & view & A & P & J & _ & ->)|(E1 & E2 & E3)].
  2:{ unfold inv1. rewrite E1. split; [exact R|]. split; [destruct E3 as [->|[-> E3]]; lia|]. exists own. unfold records. rewrite E1, E2. done. }
  pose proof (alive_saver _ A P) as Hd. destruct (job_effect view j (y_saver y) Hd) as (JC & e & L & D).
  split; [eapply csteps_trans; [exact R|apply run_job_steps]|]. cbn [y_saver y_pc with_saver y_jobs]. split.
  { destruct (log_grows view j (y_saver y)) as [e' ->]. rewrite app_length. lia. }
  unfold records. cbn [y_saver y_pc with_saver y_jobs]. rewrite L.
  destruct D as [(P1 & S1 & C1)|(ar & P1 & S1 & C1)].
  - exists own. split; [|split; [|split; [|split]]].
    + intros c Hc. by apply K1, C1.
    + intros k c Hc. apply elem_of_app in Hc as [Hc|Hc]; [by eapply K1, JC|]. apply (K2 k). rewrite J. by right.
    + rewrite sent_app, S1, app_nil_r. exact K3.
    + intros u r Hu. rewrite P1. by eapply K4.
    + rewrite sent_app, S1, app_nil_r. exact K5.
  - set (pm := mkcell (p_uid (s_pos (y_saver y))) ar) in *.
    exists (fun u => if Nat.eqb u (p_uid (s_pos (y_saver y))) then Some ar else own u).
    assert (Old : forall c, known own c -> known (fun u => if Nat.eqb u (p_uid (s_pos (y_saver y))) then Some ar else own u) c).
    { intros c Hc. unfold known in *. pose proof (K4 _ _ Hc). destruct (Nat.eqb_spec (c_uid c) (p_uid (s_pos (y_saver y)))); [lia|exact Hc]. }
    assert (New : known (fun u => if Nat.eqb u (p_uid (s_pos (y_saver y))) then Some ar else own u) pm).
    { unfold known, pm. cbn [c_uid c_ar]. by rewrite Nat.eqb_refl. }
    split; [|split; [|split; [|split]]].
    + intros c Hc. destruct (C1 c Hc) as [->|Hc']; [exact New|]. by apply Old, K1.
    + intros k c Hc. apply Old. apply elem_of_app in Hc as [Hc|Hc]; [by eapply K1, JC|]. apply (K2 k). rewrite J. by right.
    + intros c Hc. rewrite sent_app in Hc. apply elem_of_app in Hc as [Hc|Hc]; [by apply Old, K3|].
      destruct S1 as [S1|S1]; rewrite S1 in Hc; [by apply elem_of_nil in Hc|]. apply elem_of_list_singleton in Hc as ->. exact New.
    + intros u r. rewrite P1. destruct (Nat.eqb_spec u (p_uid (s_pos (y_saver y)))); [lia|]. intros Hu. pose proof (K4 _ _ Hu). lia.
    + rewrite sent_app, fmap_app. destruct S1 as [S1|S1]; rewrite S1; [by rewrite app_nil_r|]. cbn [fmap list_fmap].
      apply NoDup_app. split; [exact K5|]. split; [|apply NoDup_singleton]. intros u Hu Hu'. apply elem_of_list_singleton in Hu'.
      apply elem_of_list_fmap in Hu as (c & -> & Hc). pose proof (K4 _ _ (K3 c Hc)). unfold pm in Hu'. cbn [c_uid] in Hu'. lia.
Qed.

(** ** Channels and records *)
Definition sends (q : nat) (l : list action) : list task :=
  omap (fun a => match a with ASend q' msg wr => if Nat.eqb q' q then Some (msg, wr) else None | _ => None end) l.
Definition inflight (p : phase) : list task :=
  match p with
  | Idle | Finished => []
  | Holding t => [t]
  | Anonymized c wr | Rendered c _ wr | Newline c wr => [(Some c, wr)]
  end.
Definition pending (m : marsh) : list task := inflight (m_phase m) ++ m_chan m.
Definition waiting (m : marsh) : list task := (match m_phase m with Holding t => [t] | _ => [] end) ++ m_chan m.
Definition phase_ok (h : gmap nat bytes) (p : phase) : Prop :=
  match p with
  | Anonymized c _ => exists raw, h !! c_uid c = Some raw /\ anonymize anon (header (c_ar c)) = Ret raw
  | Rendered c b _ => exists r, hidden anon (c_ar c) = Some r /\ b = line r
  | Newline c _ => is_Some (hidden anon (c_ar c))
  | _ => True
  end.
Definition inv2 (y : sys) : Prop := y_panic y = false ->
  (forall u raw, y_heap y !! u = Some raw ->
     exists c, c ∈ sent (executed y) /\ c_uid c = u /\ anonymize anon (header (c_ar c)) = Ret raw) /\
  length (y_marsh y) = nmarsh cf /\
  forall q m, y_marsh y !! q = Some m ->
    (exists D, sends q (executed y) = D ++ pending m) /\
    (forall c wr, (Some c, wr) ∈ waiting m -> y_heap y !! c_uid c = None) /\
    phase_ok (y_heap y) (m_phase m).

Lemma sends_app q a b : sends q (a ++ b) = sends q a ++ sends q b. Proof. apply omap_app. Qed.
Lemma sends_sent q c wr l : (Some c, wr) ∈ sends q l -> c ∈ sent l.
Proof.
  intros H. apply elem_of_list_omap in H as (a & Ha & H). destruct a; try discriminate H.
  destruct (Nat.eqb q0 q); [|discriminate H]. injection H as -> ->. by eapply sent_in.
Qed.
Lemma sends_apart q q' c c' wr wr' l : NoDup (c_uid <$> sent l) ->
  (Some c, wr) ∈ sends q l -> (Some c', wr') ∈ sends q' l -> c_uid c = c_uid c' -> q = q'.
Proof.
  induction l as [|a l IH]; intros N H H' E; [by apply elem_of_nil in H|].
  destruct (match a with ASend _ (Some _) _ => true | _ => false end) eqn:Ea.
  - destruct a as [| | | | | | | |q0 [c0|] wr0| | | | | | | |]; try discriminate Ea. clear Ea.
    cbn in N. apply NoDup_cons in N as [N1 N2].
    assert (Out : forall q1 c1 wr1, (Some c1, wr1) ∈ sends q1 l -> c_uid c1 <> c_uid c0).
    { intros q1 c1 wr1 H1 E1. apply N1. rewrite <- E1. apply elem_of_list_fmap_1. by eapply sends_sent. }
    cbn in H, H'. destruct (Nat.eqb_spec q0 q) as [E1|Nq], (Nat.eqb_spec q0 q') as [E2|Nq'].
    + congruence.
    + apply elem_of_cons in H as [H|H]; [injection H as -> _; symmetry in E; by apply Out in H'|by eapply IH].
    + apply elem_of_cons in H' as [H'|H']; [injection H' as -> _; by apply Out in H|by eapply IH].
    + by eapply IH.
  - assert (S : sent (a :: l) = sent l) by (destruct a as [| | | | | | | |? [?|]| | | | | | | |]; try reflexivity; discriminate Ea).
    rewrite S in N.
    assert (T : forall q1 c1 wr1, (Some c1, wr1) ∈ sends q1 (a :: l) -> (Some c1, wr1) ∈ sends q1 l).
    { intros q1 c1 wr1 H1. destruct a as [| | | | | | | |q0 [?|] wr0| | | | | | | |]; try discriminate Ea; try exact H1.
      cbn in H1. destruct (Nat.eqb q0 q1); [|exact H1]. apply elem_of_cons in H1 as [H1|H1]; [discriminate H1|exact H1]. }
    eapply IH; [exact N|apply T; exact H|apply T; exact H'|exact E].
Qed.
Lemma sends_once q l D ts c wr : NoDup (c_uid <$> sent l) -> sends q l = D ++ (Some c, wr) :: ts ->
  forall c' wr', (Some c', wr') ∈ ts -> c_uid c' <> c_uid c.
Proof.
  intros N E.
  assert (G : forall l, NoDup (c_uid <$> sent l) -> NoDup (c_uid <$> omap fst (sends q l))).
  { clear. intros l. induction l as [|a l IH]; [done|]. intros N.
    destruct a as [| | | | | | | |q0 [c0|] wr0| | | | | | | |]; try exact (IH N); cbn in N |- *; destruct (Nat.eqb q0 q); cbn; try exact (IH N).
    - apply NoDup_cons in N as [N1 N2]. apply NoDup_cons. split; [|by apply IH]. intros H. apply N1.
      apply elem_of_list_fmap in H as (x & Ex & H). rewrite Ex. apply elem_of_list_fmap_1.
      apply elem_of_list_omap in H as ([y wr] & H & Ey). cbn in Ey. subst y. by eapply sends_sent.
    - apply NoDup_cons in N as [N1 N2]. by apply IH. }
  specialize (G l N). rewrite E, omap_app in G. cbn in G. rename G into N'.
  rewrite fmap_app in N'. apply NoDup_app in N' as (_ & _ & N'). cbn in N'. apply NoDup_cons in N' as [N' _].
  intros c' wr' H E'. apply N'. rewrite <- E'. apply elem_of_list_fmap_1. apply elem_of_list_omap. by exists (Some c', wr').
Qed.

Lemma insert_cases {A} (l : list A) q x q' y : <[q := x]> l !! q' = Some y -> (q' = q /\ y = x) \/ (q' <> q /\ l !! q' = Some y).
Proof. intros H. apply list_lookup_insert_Some in H as [(-> & -> & _)|[N H]]; [by left|by right]. Qed.
Lemma executed_same y y' : y_saver y' = y_saver y -> y_pc y' = y_pc y -> executed y' = executed y.
Proof. unfold executed. by intros -> ->. Qed.
Lemma executed_job view j js y : y_pc y = length (s_log (y_saver y)) ->
  executed (with_saver (run_job w cf view j (y_saver y)).1 js y) = executed y.
Proof.
  intros P. unfold executed. cbn [y_pc y_saver with_saver]. destruct (log_grows view j (y_saver y)) as [e ->].
  rewrite P. rewrite take_app. symmetry. by apply firstn_all2.
Qed.
Lemma executed_act a y y' : s_log (y_saver y) !! y_pc y = Some a -> exec cap hline a y = Some y' ->
  executed (with_pc (S (y_pc y)) y') = executed y ++ [a].
Proof.
  intros L E. destruct (exec_saver _ _ _ E) as (E1 & _ & E3 & _). unfold executed. cbn [y_pc y_saver with_pc]. rewrite E1.
  by apply take_S_r.
Qed.
Lemma executed_nodup y : inv1 y -> NoDup (c_uid <$> sent (s_log (y_saver y))) /\ NoDup (c_uid <$> sent (executed y)).
Proof.
  intros (_ & _ & own & _ & _ & _ & _ & K5). split; [exact K5|]. destruct (executed_log y) as [e E].
  rewrite E, sent_app, fmap_app in K5. by apply NoDup_app in K5 as [K5 _].
Qed.
Lemma pending_in_log y q m t : inv2 y -> y_panic y = false -> y_marsh y !! q = Some m -> t ∈ pending m -> t ∈ sends q (executed y).
Proof. intros I P M T. destruct (I P) as (_ & _ & H). destruct (H q m M) as ((D & ->) & _). apply elem_of_app. by right. Qed.

Lemma inv2_init : inv2 (initial cf bs).
Proof.
  intros _. split; [intros u raw H; cbn in H; by rewrite lookup_empty in H|]. split; [by apply replicate_length|].
  intros q m H. apply lookup_replicate in H as [-> _]. split; [by exists []|]. split; [intros c wr H; by apply elem_of_nil in H|done].
Qed.

(** A marshaller moves on without touching the heap. *)
Lemma inv2_marsh y q m m' y' : inv2 y -> y_panic y = false -> y_marsh y !! q = Some m ->
  executed y' = executed y -> y_heap y' = y_heap y -> y_marsh y' = <[q := m']> (y_marsh y) ->
  (exists D', pending m = D' ++ pending m') ->
  (forall t, t ∈ waiting m' -> t ∈ waiting m) -> phase_ok (y_heap y) (m_phase m') -> inv2 y'.
Proof.
  intros I P M E Hh Em (D' & HD') Hw Hp _. destruct (I P) as (I1 & I2 & I3). rewrite E, Hh, Em. split; [exact I1|].
  split; [by rewrite insert_length|]. intros q' mm H. apply insert_cases in H as [(-> & ->)|(N & H)]; [|by apply I3].
  destruct (I3 q m M) as ((D & HD) & J2 & J3). split; [|split; [|exact Hp]].
  - exists (D ++ D'). by rewrite HD, HD', app_assoc.
  - intros c wr Hc. eapply J2. by apply Hw.
Qed.

Lemma hidden_of c raw : anonymize anon (header (c_ar c)) = Ret raw ->
  hidden anon (c_ar c) = Some (mkar (ar_time (c_ar c)) (Some raw) (ar_attrs (c_ar c)) (ar_meta (c_ar c))).
Proof using Hlen. intros H. pose proof (anonymize_hidden anon (header (c_ar c)) Hlen) as A. rewrite H in A. unfold hidden. by rewrite A. Qed.

Lemma inv2_step y y' : inv1 y -> inv2 y -> step y y' -> inv2 y'.
Proof using Hlen.
  intros I1 I H. destruct (executed_nodup y I1) as [NL NE].
  destruct H as [y j js view A P J V|y a y' A L E|y q m t ts A M P C|y q m A M P C Cl|y q m wr A M P|y q m c wr raw A M P R
    |y q m c wr e A M P R|y q m c wr A M P|y q m c b wr A M P|y q m c wr A M P].
  - intros Hp. cbn [y_panic with_saver] in Hp. destruct (I Hp) as (G1 & G2 & G3). rewrite executed_job by done. done.
  - pose proof (proj1 A) as Pn. destruct (I Pn) as (G1 & G2 & G3).
    assert (X : executed (with_pc (S (y_pc y)) y') = executed y ++ [a]) by (by apply executed_act).
    intros Hp. cbn [y_panic with_pc] in Hp. rewrite X. clear X.
    destruct (exec_saver _ _ _ E) as (_ & _ & _ & Hh). cbn [y_heap y_marsh with_pc]. rewrite Hh.
    assert (Q : forall q, (forall msg wr, a <> ASend q msg wr) -> sends q (executed y ++ [a]) = sends q (executed y)).
    { intros q Ha. rewrite sends_app. destruct a; cbn; try apply app_nil_r. destruct (Nat.eqb_spec q0 q) as [->|_]; [|apply app_nil_r].
      exfalso. by eapply Ha. }
    split.
    { intros u raw Hu. destruct (G1 u raw Hu) as (c & Hc & Hx). exists c. split; [|exact Hx]. rewrite sent_app. apply elem_of_app. by left. }
    destruct (match a with ASend _ _ _ | ACloseChan _ => true | _ => false end) eqn:Ea.
    2:{ assert (Em : y_marsh y' = y_marsh y).
        { destruct a; try discriminate Ea; cbn [exec] in E; try (injection E as <-; reflexivity). destruct (y_wg y); injection E as <-; reflexivity. }
        rewrite Em. split; [exact G2|]. intros q m M. rewrite Q; [by apply G3|]. intros msg wr ->. discriminate Ea. }
    destruct a as [| | | | | | | |q msg wr| | | | | | |q|]; try discriminate Ea; cbn [exec] in E.
    + destruct (y_marsh y !! q) as [m|] eqn:M; [|injection E as <-; discriminate Hp].
      destruct (m_closed m) eqn:Cl; [injection E as <-; discriminate Hp|].
      destruct (length (m_chan m) <? cap); [|discriminate E]. injection E as <-. cbn [y_marsh with_marsh].
      split; [by rewrite insert_length|]. intros q' m' H. apply insert_cases in H as [(-> & ->)|(N & H)].
      * destruct (G3 q m M) as ((D & HD) & J2 & J3). split; [|split; [|exact J3]].
        -- exists D. rewrite sends_app, HD. unfold pending. cbn. rewrite Nat.eqb_refl. by rewrite <- !app_assoc.
        -- intros c wr' Hc. unfold waiting in Hc. cbn [m_phase m_chan] in Hc. rewrite app_assoc in Hc. apply elem_of_app in Hc as [Hc|Hc]; [by eapply J2|].
           apply elem_of_list_singleton in Hc. injection Hc as <- ->.
           destruct (y_heap y !! c_uid c) as [raw|] eqn:Eh; [|done]. exfalso. destruct (G1 _ _ Eh) as (c' & Hc' & Ec & _).
           destruct (executed_log y) as [e EL]. apply take_S_r in L. fold (executed y) in L.
           assert (NX : NoDup (c_uid <$> sent (executed y ++ [ASend q (Some c) wr]))).
           { rewrite <- L. rewrite <- (firstn_skipn (S (y_pc y)) (s_log (y_saver y))), sent_app, fmap_app in NL. by apply NoDup_app in NL as [NL _]. }
           rewrite sent_app, fmap_app in NX. apply NoDup_app in NX as (_ & NX & _). apply (NX (c_uid c)).
           ++ rewrite <- Ec. by apply elem_of_list_fmap_1.
           ++ apply elem_of_list_singleton. reflexivity.
      * rewrite Q; [by apply G3|]. intros msg' wr' E. injection E as E _ _. by apply N.
    + destruct (y_marsh y !! q) as [m|] eqn:M; [|injection E as <-; discriminate Hp].
      destruct (m_closed m) eqn:Cl; [injection E as <-; discriminate Hp|]. injection E as <-. cbn [y_marsh with_marsh].
      split; [by rewrite insert_length|]. intros q' m' H. rewrite Q by (intros msg' wr' E; discriminate E).
      apply insert_cases in H as [(-> & ->)|(N & H)]; [|by apply G3]. exact (G3 q m M).
  - eapply (inv2_marsh y q m); [exact I|exact (proj1 A)|exact M|reflexivity|reflexivity|reflexivity| | |exact Logic.I].
    + exists []. unfold pending. cbn. by rewrite P, C.
    + intros t' Ht. unfold waiting in *. cbn in *. rewrite P, C. exact Ht.
  - destruct (y_wg y) as [|n]; [intros Hp; discriminate Hp|].
    eapply (inv2_marsh y q m); [exact I|exact (proj1 A)|exact M|reflexivity|reflexivity|reflexivity| | |exact Logic.I].
    + exists []. unfold pending. cbn. by rewrite P, C.
    + intros t' Ht. unfold waiting in *. cbn in *. by rewrite P.
  - eapply (inv2_marsh y q m); [exact I|exact (proj1 A)|exact M|reflexivity|reflexivity|reflexivity| | |exact Logic.I].
    + exists [(None, wr)]. unfold pending. cbn. by rewrite P.
    + intros t' Ht. unfold waiting in *. cbn in *. rewrite P. by right.
  - (* anonymize *)
    pose proof (proj1 A) as Pn. destruct (I Pn) as (G1 & G2 & G3). destruct (G3 q m M) as ((D & HD) & J2 & J3).
    assert (Eh : y_heap y !! c_uid c = None). { apply (J2 c wr). unfold waiting. rewrite P. apply elem_of_app. left. apply elem_of_list_here. }
    assert (R' : anonymize anon (header (c_ar c)) = Ret raw). { unfold current in R. rewrite Eh in R. exact R. }
    intros _. unfold executed. cbn [y_saver y_pc goes_to with_marsh with_heap y_heap y_marsh]. fold (executed y).
    assert (Hc : (Some c, wr) ∈ sends q (executed y)). { rewrite HD. apply elem_of_app. right. unfold pending. rewrite P. apply elem_of_app. left. apply elem_of_list_here. }
    split; [|split; [rewrite insert_length; exact G2|]].
    + intros u raw' Hu. destruct (decide (c_uid c = u)) as [<-|N].
      * rewrite lookup_insert in Hu. injection Hu as <-. exists c. split; [eapply sends_sent; exact Hc|]. split; [reflexivity|exact R'].
      * rewrite lookup_insert_ne in Hu by exact N. apply G1. exact Hu.
    + intros q' m' H. apply insert_cases in H as [(-> & ->)|(N & H)].
      * split; [|split].
        -- exists D. unfold pending in *. rewrite P in HD. exact HD.
        -- intros c' wr' Hc'. unfold waiting in Hc'. cbn in Hc'. rewrite lookup_insert_ne; [apply (J2 c' wr'); unfold waiting; rewrite P; apply elem_of_app; right; exact Hc'|].
           unfold pending in HD. rewrite P in HD. apply not_eq_sym. eapply (sends_once q _ D (m_chan m) c wr); [exact NE|exact HD|exact Hc'].
        -- cbn. exists raw. rewrite lookup_insert. split; [reflexivity|exact R'].
      * destruct (G3 q' m' H) as ((D' & HD') & J2' & J3'). split; [exists D'; exact HD'|]. split.
        -- intros c' wr' Hc'. rewrite lookup_insert_ne; [eapply J2'; exact Hc'|]. intros Eu. apply N.
           symmetry. eapply (sends_apart q q' c c' wr wr'); [exact NE|exact Hc| |exact Eu].
           rewrite HD'. apply elem_of_app. right. unfold waiting in Hc'. unfold pending. apply elem_of_app in Hc' as [Hc'|Hc']; apply elem_of_app; [left|right; exact Hc'].
           destruct (m_phase m'); try (apply elem_of_nil in Hc'; contradiction). exact Hc'.
        -- destruct (m_phase m') as [|t|c1 w1|c1 b1 w1|c1 w1|]; cbn in *; try exact J3'. destruct J3' as (raw1 & F1 & F2).
           exists raw1. split; [|exact F2]. rewrite lookup_insert_ne; [exact F1|]. intros Eu. rewrite <- Eu, Eh in F1. discriminate F1.
  - eapply (inv2_marsh y q m); [exact I|exact (proj1 A)|exact M|reflexivity|reflexivity|reflexivity| | |exact Logic.I].
    + exists [(Some c, wr)]. unfold pending. cbn. by rewrite P.
    + intros t' Ht. unfold waiting in *. cbn in *. rewrite P. by right.
  - destruct (I (proj1 A)) as (_ & _ & G3). destruct (G3 q m M) as (_ & _ & J3). rewrite P in J3. destruct J3 as (raw & F1 & F2).
    eapply (inv2_marsh y q m); [exact I|exact (proj1 A)|exact M|reflexivity|reflexivity|reflexivity| | |].
    + exists []. unfold pending. cbn. by rewrite P.
    + intros t' Ht. unfold waiting in *. cbn in *. by rewrite P.
    + cbn. eexists. split; [apply hidden_of; exact F2|]. unfold current. rewrite F1. reflexivity.
  - destruct (I (proj1 A)) as (_ & _ & G3). destruct (G3 q m M) as (_ & _ & J3). rewrite P in J3. destruct J3 as (r & F1 & F2).
    eapply (inv2_marsh y q m); [exact I|exact (proj1 A)|exact M|reflexivity|reflexivity|reflexivity| | |].
    + exists []. unfold pending. cbn. by rewrite P.
    + intros t' Ht. unfold waiting in *. cbn in *. by rewrite P.
    + cbn. by exists r.
  - eapply (inv2_marsh y q m); [exact I|exact (proj1 A)|exact M|reflexivity|reflexivity|reflexivity| | |exact Logic.I].
    + exists [(Some c, wr)]. unfold pending. cbn. by rewrite P.
    + intros t' Ht. unfold waiting in *. cbn in *. by rewrite P.
Qed.

(** ** Closing of channels, the wait group, panics *)
Hypothesis Hn : 1 <= nmarsh cf.
Lemma owner_exists s wr : reached w cf s -> exists q, q < nmarsh cf /\ forall q' msg, ASend q' msg wr ∈ s_log s -> q' = q.
Proof.
  intros R. destruct (reached_finv w cf s R) as (F1 & F2 & F3 & _).
  assert (Q : forall k md recs path cl, file_actions wr (s_log s) = written wr (qof cf k) md recs path cl ->
    exists q, q < nmarsh cf /\ forall q' msg, ASend q' msg wr ∈ s_log s -> q' = q).
  { intros k md recs path cl E. exists (qof cf k). split.
    - unfold qof. pose proof (N.mod_lt k (N.of_nat (nmarsh cf)) ltac:(lia)). lia.
    - intros q' msg Hin. assert (Hin' : ASend q' msg wr ∈ file_actions wr (s_log s)).
      { apply elem_of_list_In, List.filter_In. split; [by apply elem_of_list_In|]. cbn. apply Nat.eqb_refl. }
      rewrite E in Hin'. unfold written in Hin'. rewrite !elem_of_app in Hin'. destruct Hin' as [H|[H|H]].
      + rewrite !elem_of_cons, elem_of_nil in H. destruct H as [H|[H|H]]; [discriminate H|discriminate H|done].
      + apply elem_of_list_In, in_map_iff in H as (x & H & _). injection H as -> _. reflexivity.
      + destruct cl; [|by apply elem_of_nil in H]. apply elem_of_list_singleton in H. injection H as -> _. reflexivity. }
  destruct (le_lt_dec (p_writer (s_pos s)) wr) as [L|L].
  - exists 0. split; [lia|]. intros q' msg Hin. exfalso. assert (Hin' : ASend q' msg wr ∈ file_actions wr (s_log s)).
    { apply elem_of_list_In, List.filter_In. split; [by apply elem_of_list_In|]. cbn. apply Nat.eqb_refl. }
    rewrite (F1 wr L) in Hin'. by apply elem_of_nil in Hin'.
  - destruct (F3 wr L) as [(k & c & Hk & Hw)|(k & md & recs & path & E & _)]; [|by eapply Q].
    destruct (F2 _ _ _ Hk Hw) as (_ & md & recs & path & E & _). by eapply Q.
Qed.

Definition ordinary (j : job) : Prop := j <> JShutdown /\ j <> JCloseChans.
Definition chan_free (l : list action) : Prop := existsb is_chan l = false.
Definition shape (y : sys) : Prop :=
  (chan_free (s_log (y_saver y)) /\ exists js j, y_jobs y = js ++ [j] /\ (j = JShutdown \/ j = JCloseChans) /\ Forall ordinary js) \/
  (y_jobs y = [] /\ exists l1, chan_free l1 /\ s_log (y_saver y) = l1 ++ map ACloseChan (seq 0 (nmarsh cf)) ++ [ADone]).
Definition running (m : marsh) : bool := match m_phase m with Finished => false | _ => true end.
Definition is_done (a : action) : bool := match a with ADone => true | _ => false end.
Definition closes (q : nat) (a : action) : bool := match a with ACloseChan q' => Nat.eqb q' q | _ => false end.
Definition count_running (l : list marsh) : nat := length (List.filter running l).
Definition inv3 (y : sys) : Prop :=
  y_panic y = false /\ shape y /\
  (forall q m, y_marsh y !! q = Some m -> m_closed m = existsb (closes q) (executed y) /\
     (m_phase m = Finished -> m_closed m = true /\ m_chan m = [])) /\
  y_wg y = (if existsb is_done (executed y) then 0 else 1) + count_running (y_marsh y).

Lemma chan_free_app a b : chan_free (a ++ b) <-> chan_free a /\ chan_free b.
Proof. unfold chan_free. rewrite existsb_app. apply orb_false_iff. Qed.
Lemma chan_free_closes l q : chan_free l -> existsb (closes q) l = false /\ existsb is_done l = false.
Proof.
  intros H. unfold chan_free in H. induction l as [|a l IH]; [done|]. cbn [existsb] in *. apply orb_false_iff in H as [H1 H2].
  destruct (IH H2) as [I1 I2]. rewrite I1, I2. destruct a; try discriminate H1; done.
Qed.

Lemma job_shape view j s : s_dead s = false -> ordinary j ->
  (exists e, s_log (run_job w cf view j s).1 = s_log s ++ e /\ chan_free e) /\ Forall ordinary (run_job w cf view j s).2.
Proof.
  intros Hd [O1 O2]. destruct j as [b|t m|t|km|t| |k|]; cbn [run_job fst snd]; try (by destruct O1); try (by destruct O2).
  - split; [exists []; by rewrite app_nil_r|].
    assert (G : forall t ms, Forall ordinary (map (JMsg t) ms)) by (intros t ms; induction ms; constructor; [split; discriminate|done]).
    apply Forall_app. split; [apply G|]. apply Forall_app. split; [apply G|]. constructor; [split; discriminate|constructor].
  - split; [|constructor]. destruct (handle_effect w cf view t m s) as [(e & L & _ & C & _)|(ar & _ & _ & _ & e & L & C & _)]; by exists e.
  - destruct (end_round_effect w s) as ((e & L & _ & C & _) & _). destruct (end_round w s) as [res s1]. cbn [fst snd] in *. split; [by exists e|].
    apply Forall_app. split; [|constructor; [split; discriminate|constructor]]. induction res; constructor; [split; discriminate|done].
  - split; [|constructor]. destruct (close_one_adds w cf view km s) as (e & L & _ & C & _). by exists e.
  - split; [|constructor]. destruct (report_adds t s) as (e & L & _ & C & _). by exists e.
  - split; [|constructor]. unfold end_conn_alive. rewrite Hd. destruct (end_conn_adds w cf k s) as (e & L & _ & C & _). by exists e.
Qed.

Lemma shape_step y y' : shape y -> step y y' -> shape y'.
Proof.
  intros S H. destruct (step_saver _ _ H) as [(j & js & view & A & P & J & _ & ->)|(E1 & E2 & _)].
  2:{ unfold shape. rewrite E1, E2. exact S. }
  pose proof (alive_saver _ A P) as Hd. destruct S as [(C & js0 & j0 & E & Hj & Ho)|(E & _)]; [|rewrite E in J; discriminate J].
  unfold shape. cbn [y_saver y_jobs with_saver].
  destruct js0 as [|j1 js0]; cbn [app] in E; rewrite J in E; injection E as -> ->.
  - rewrite app_nil_r. destruct Hj as [-> | ->]; cbn [run_job].
    + left. split; [exact C|]. cbn [range_keys fst snd]. eexists _, JCloseChans. split; [reflexivity|]. split; [by right|].
      induction (order w _ _); constructor; [split; discriminate|done].
    + right. split; [reflexivity|]. destruct (close_chans_log (y_saver y) Hd) as (L & _). exists (s_log (y_saver y)). done.
  - left. inversion Ho as [|? ? O1 O2]; subst. destruct (job_shape view j1 (y_saver y) Hd O1) as ((e & L & Ce) & Oj). split.
    + rewrite L. by apply chan_free_app.
    + exists ((run_job w cf view j1 (y_saver y)).2 ++ js0), j0. split; [by rewrite app_assoc|]. split; [exact Hj|]. by apply Forall_app.
Qed.

(** What the next action can be. *)
Lemma next_action y a : shape y -> s_log (y_saver y) !! y_pc y = Some a ->
  (is_chan a = false -> chan_free (executed y)) /\ (is_chan a = true -> a ∉ executed y) /\
  (forall q, a = ACloseChan q -> q < nmarsh cf).
Proof.
  intros S L. pose proof (take_drop_middle _ _ _ L) as E. fold (executed y) in E. set (rest := drop _ _) in E.
  destruct S as [(C & _)|(_ & l1 & C & E2)].
  - assert (Ha : is_chan a = false /\ chan_free (executed y)).
    { rewrite <- E in C. apply chan_free_app in C as [C1 C2]. split; [|exact C1]. unfold chan_free in C2. cbn in C2. by apply orb_false_iff in C2 as [? _]. }
    destruct Ha as [Ha C1]. split; [done|]. split; [by rewrite Ha|]. intros q ->. discriminate Ha.
  - rewrite E2 in E. set (l2 := map ACloseChan (seq 0 (nmarsh cf)) ++ [ADone]) in E.
    assert (N2 : NoDup l2).
    { unfold l2. apply NoDup_app. split; [|split; [|apply NoDup_singleton]].
      - apply NoDup_ListNoDup, FinFun.Injective_map_NoDup; [intros x y0 [=]; done|apply seq_NoDup].
      - intros x Hx Hx'. apply elem_of_list_singleton in Hx' as ->. apply elem_of_list_In, in_map_iff in Hx as (z & Hz & _). discriminate Hz. }
    assert (C2 : forall x, x ∈ l2 -> is_chan x = true /\ forall q, x = ACloseChan q -> q < nmarsh cf).
    { intros x Hx. unfold l2 in Hx. apply elem_of_app in Hx as [Hx|Hx].
      - apply elem_of_list_In, in_map_iff in Hx as (z & <- & Hz). apply in_seq in Hz. split; [done|]. intros q [= <-]. lia.
      - apply elem_of_list_singleton in Hx as ->. split; [done|]. intros q [=]. }
    symmetry in E. apply app_eq_inv in E as [(k & E1 & E3)|(k & E1 & E3)].
    + destruct k as [|x k].
      * rewrite app_nil_r in E1. cbn in E3. rewrite <- E1. assert (In2 : a ∈ l2) by (rewrite <- E3; by left).
        destruct (C2 a In2) as [Ca Cq]. split; [intros; exact C|]. split; [|exact Cq]. intros _ Hin. unfold chan_free in C.
        assert (existsb is_chan l1 = true) by (apply existsb_exists; exists a; split; [by apply elem_of_list_In|exact Ca]). congruence.
      * cbn in E3. injection E3 as <- E3. rewrite E1 in C. apply chan_free_app in C as [C1 Cx]. unfold chan_free in Cx. cbn in Cx. apply orb_false_iff in Cx as [Cx _].
        split; [done|]. split; [by rewrite Cx|]. intros q ->. discriminate Cx.
    + assert (In2 : a ∈ l2) by (rewrite E3; apply elem_of_app; right; by left). destruct (C2 a In2) as [Ca Cq].
      split; [by rewrite Ca|]. split; [|exact Cq]. intros _ Hin. rewrite E1 in Hin. apply elem_of_app in Hin as [Hin|Hin].
      * unfold chan_free in C. assert (existsb is_chan l1 = true) by (apply existsb_exists; exists a; split; [by apply elem_of_list_In|exact Ca]). congruence.
      * rewrite E3 in N2. apply NoDup_app in N2 as (_ & N2 & _). apply (N2 a Hin). by left.
Qed.

Lemma count_running_insert l q m m' : l !! q = Some m ->
  count_running (<[q := m']> l) + (if running m then 1 else 0) = count_running l + (if running m' then 1 else 0).
Proof.
  revert q. induction l as [|x l IH]; intros q H; [done|]. unfold count_running in *. destruct q as [|q]; cbn in H.
  - injection H as ->. cbn [insert list_insert List.filter]. destruct (running m), (running m'); cbn [length]; lia.
  - change (<[S q := m']> (x :: l)) with (x :: <[q := m']> l). cbn [List.filter]. specialize (IH q H). destruct (running x); cbn [length]; lia.
Qed.
Lemma inv3_init : inv3 (initial cf bs).
Proof.
  split; [done|]. split; [|split].
  - left. split; [done|]. exists (map JBlock bs), JShutdown. split; [done|]. split; [by left|].
    apply Forall_forall. intros j Hj. apply elem_of_list_In, in_map_iff in Hj as (b & <- & _). split; discriminate.
  - intros q m H. apply lookup_replicate in H as [-> _]. done.
  - assert (G : forall n, count_running (replicate n (mkmarsh [] false Idle)) = n).
    { intros n. induction n as [|n IH]; [reflexivity|]. unfold count_running in *. cbn [replicate List.filter running m_phase length]. by rewrite IH. }
    cbn [y_wg y_marsh initial]. rewrite G. reflexivity.
Qed.
(** A marshaller moves between unfinished phases. *)
Lemma inv3_marsh y q m m' y' : inv3 y -> y_marsh y !! q = Some m -> executed y' = executed y -> y_saver y' = y_saver y -> y_jobs y' = y_jobs y ->
  y_panic y' = y_panic y -> y_wg y' = y_wg y -> y_marsh y' = <[q := m']> (y_marsh y) -> m_closed m' = m_closed m ->
  running m = true -> running m' = true -> inv3 y'.
Proof.
  intros (P & S & H & W) M E E1 E2 E3 E4 E5 Cl R R'. split; [congruence|]. split; [unfold shape; by rewrite E1, E2|]. split.
  - intros q' mm. rewrite E5, E. intros H'. apply insert_cases in H' as [(-> & ->)|(N & H')]; [|by apply H].
    split; [rewrite Cl; by apply H|]. intros F. unfold running in R'. rewrite F in R'. discriminate R'.
  - rewrite E, E4, E5, W. pose proof (count_running_insert _ _ _ m' M) as C. rewrite R, R' in C. lia.
Qed.
Lemma inv3_step y y' : inv1 y -> inv2 y -> inv3 y -> step y y' -> inv3 y'.
Proof.
  intros J1 J2 I H. pose proof I as (P & S & G & W). pose proof (shape_step _ _ S H) as S'. destruct (J2 P) as (_ & Hlenm & Hq).
  destruct H as [y j js view A Pc J V|y a y' A L E|y q m t ts A M Ph C|y q m A M Ph C Cl|y q m wr A M Ph|y q m c wr raw A M Ph R
    |y q m c wr e A M Ph R|y q m c wr A M Ph|y q m c b wr A M Ph|y q m c wr A M Ph].
  - split; [exact P|]. split; [exact S'|]. rewrite executed_job by done. split; [exact G|exact W].
  - destruct (next_action y a S L) as (N1 & N2 & N3). assert (X : executed (with_pc (Datatypes.S (y_pc y)) y') = executed y ++ [a]) by (by apply executed_act).
    unfold inv3. rewrite X. clear X. cbn [y_panic y_marsh y_wg with_pc].
    destruct (is_chan a) eqn:Ca.
    2:{ specialize (N1 eq_refl). assert (F : forall q, existsb (closes q) (executed y ++ [a]) = false /\ existsb is_done (executed y ++ [a]) = false).
        { intros q. apply chan_free_closes. apply chan_free_app. split; [exact N1|]. unfold chan_free. cbn. by rewrite Ca. }
        assert (F0 : forall q, existsb (closes q) (executed y) = false /\ existsb is_done (executed y) = false) by (intros q; by apply chan_free_closes).
        destruct (match a with ASend _ _ _ => true | _ => false end) eqn:Ea.
        - destruct a as [| | | | | | | |q msg wr| | | | | | | |]; try discriminate Ea. cbn [exec] in E.
          assert (Hql : q < length (y_marsh y)).
          { rewrite Hlenm. destruct (owner_exists (y_saver y) wr (proj1 J1)) as (q0 & Lq & Ho).
            rewrite (Ho q msg); [exact Lq|]. apply elem_of_list_lookup. by exists (y_pc y). }
          destruct (lookup_lt_is_Some_2 _ _ Hql) as [m M]. rewrite M in E. destruct (G q m M) as [Gc Gf]. rewrite Gc, (proj1 (F0 q)) in E.
          destruct (_ <? _); [|discriminate E]. injection E as <-. cbn [y_panic y_marsh y_wg with_marsh].
          split; [exact P|]. split; [exact S'|]. split.
          + intros q' m' H'. rewrite (proj1 (F q')). apply insert_cases in H' as [(-> & ->)|(N & H')].
            * cbn [m_closed m_phase m_chan]. split; [reflexivity|]. intros Fi. destruct (Gf Fi) as [Hc _]. rewrite Gc, (proj1 (F0 q)) in Hc. discriminate Hc.
            * destruct (G q' m' H') as [Gc' Gf']. rewrite (proj1 (F0 q')) in Gc'. split; [exact Gc'|exact Gf'].
          + rewrite (proj2 (F 0)), W, (proj2 (F0 0)). f_equal. pose proof (count_running_insert _ _ _ (mkmarsh (m_chan m ++ [(msg, wr)]) false (m_phase m)) M) as CR.
            unfold running in CR at 1 2. cbn [m_phase] in CR. destruct (m_phase m); lia.
        - assert (Ey : y_panic y' = y_panic y /\ y_marsh y' = y_marsh y /\ y_wg y' = y_wg y).
          { destruct a; try discriminate Ea; try discriminate Ca; cbn [exec] in E; injection E as <-; repeat split. }
          destruct Ey as (-> & -> & ->). split; [exact P|]. split; [exact S'|]. split.
          + intros q m M. rewrite (proj1 (F q)). destruct (G q m M) as [Gc Gf]. rewrite (proj1 (F0 q)) in Gc. done.
          + by rewrite (proj2 (F 0)), W, (proj2 (F0 0)). }
    specialize (N2 eq_refl). destruct a as [| | | | | | | |q msg wr| | | | | | |q|]; try discriminate Ca; cbn [exec] in E.
    + assert (Hql : q < length (y_marsh y)) by (rewrite Hlenm; by apply N3).
      destruct (lookup_lt_is_Some_2 _ _ Hql) as [m M]. rewrite M in E. destruct (G q m M) as [Gc Gf].
      assert (Nc : existsb (closes q) (executed y) = false).
      { destruct (existsb (closes q) (executed y)) eqn:X; [|done]. exfalso. apply existsb_exists in X as (x & Hx & Cx). destruct x; try discriminate Cx.
        apply Nat.eqb_eq in Cx as ->. apply N2. by apply elem_of_list_In. }
      rewrite Gc, Nc in E. injection E as <-. cbn [y_panic y_marsh y_wg with_marsh]. split; [exact P|]. split; [exact S'|]. split.
      * intros q' m' H'. rewrite existsb_app. cbn [existsb closes]. rewrite orb_false_r. apply insert_cases in H' as [(-> & ->)|(N & H')].
        -- cbn [m_closed m_phase m_chan]. rewrite Nat.eqb_refl, orb_true_r. split; [done|]. intros Fi. destruct (Gf Fi) as [Hc _]. rewrite Gc, Nc in Hc. discriminate Hc.
        -- replace (q =? q') with false by (symmetry; apply Nat.eqb_neq; congruence). rewrite orb_false_r. by apply G.
      * rewrite existsb_app. cbn [existsb is_done]. rewrite !orb_false_r, W. f_equal.
        pose proof (count_running_insert _ _ _ (mkmarsh (m_chan m) true (m_phase m)) M) as CR. unfold running in CR at 1 2. cbn [m_phase] in CR.
        destruct (m_phase m); lia.
    + assert (Nd : existsb is_done (executed y) = false).
      { destruct (existsb is_done (executed y)) eqn:X; [|done]. exfalso. apply existsb_exists in X as (x & Hx & Cx). destruct x; try discriminate Cx.
        apply N2. by apply elem_of_list_In. }
      rewrite Nd in W. cbn [Nat.add] in W. rewrite W in E. injection E as <-. cbn [y_panic y_marsh y_wg with_wg]. split; [exact P|]. split; [exact S'|]. split.
      * intros q m M. rewrite existsb_app. cbn [existsb closes]. rewrite !orb_false_r. by apply G.
      * rewrite existsb_app, Nd. cbn. done.
  - eapply (inv3_marsh y q m); [exact I|exact M|reflexivity..|unfold running; by rewrite Ph|reflexivity].
  - destruct (G q m M) as [Gc Gf]. pose proof (count_running_insert _ _ _ (mkmarsh (m_chan m) (m_closed m) Finished) M) as CR.
    unfold running in CR at 1 2. rewrite Ph in CR. cbn [m_phase] in CR.
    destruct (y_wg y) as [|n] eqn:Ew; [exfalso; lia|]. split; [exact P|]. split; [exact S'|]. split.
    + cbn [y_marsh with_wg goes_to with_marsh]. intros q' m' H'. apply insert_cases in H' as [(-> & ->)|(N & H')]; [|by apply G].
      cbn [m_closed m_phase m_chan]. split; [exact Gc|done].
    + cbn [y_marsh y_wg with_wg goes_to with_marsh]. change (executed _) with (executed y). lia.
  - eapply (inv3_marsh y q m); [exact I|exact M|reflexivity..|unfold running; by rewrite Ph|reflexivity].
  - eapply (inv3_marsh y q m); [exact I|exact M|reflexivity..|unfold running; by rewrite Ph|reflexivity].
  - eapply (inv3_marsh y q m); [exact I|exact M|reflexivity..|unfold running; by rewrite Ph|reflexivity].
  - eapply (inv3_marsh y q m); [exact I|exact M|reflexivity..|unfold running; by rewrite Ph|reflexivity].
  - eapply (inv3_marsh y q m); [exact I|exact M|reflexivity..|unfold running; by rewrite Ph|reflexivity].
  - eapply (inv3_marsh y q m); [exact I|exact M|reflexivity..|unfold running; by rewrite Ph|reflexivity].
Qed.

Lemma invariants y : reachable y -> inv1 y /\ inv2 y /\ inv3 y.
Proof.
  intros H. apply (rtc_ind_r (R := step) (fun y => inv1 y /\ inv2 y /\ inv3 y) (initial cf bs)).
  - split; [apply inv1_init|]. split; [apply inv2_init|apply inv3_init].
  - intros y1 y2 _ St (I1 & I2 & I3). split; [by eapply inv1_step|]. split; [by eapply inv2_step|by eapply inv3_step].
  - exact H.
Qed.
End Inv.
