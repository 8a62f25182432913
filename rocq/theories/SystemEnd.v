(** Files during and at the end of an execution; every execution ends. *)
From stdpp Require Import gmap.
From Coq Require Import NArith ZArith Lia Wellfounded.
From Verif Require Import GoBase GoBaseFacts GoTime Inetdiag Netlink SpecNetlink SpecCompare RecordFacts CompareFacts
  Cache SpecCache CacheFacts Saver SpecSaver SpecSystem SaverSteps SaverFiles SaverJobs SaverBlocks SaverRuns SaverHistory
  System SystemViews SystemJobs SystemInv SystemFiles SystemRefine.

Lemma list_sum_cons_eq n l : list_sum (n :: l) = n + list_sum l. Proof. reflexivity. Qed.
Section Terminates.
Variables (w : world) (cf : config) (cap : nat) (anon : bytes -> bytes) (line : archival -> bytes) (hline : metadata -> bytes).
Notation step := (step w cf cap anon line hline).
(** ** Termination *)
Definition big (j : job) : bool := match j with JBlock _ | JShutdown => true | _ => false end.
Definition medium (j : job) : bool := match j with JRound _ => true | _ => false end.
Definition cnt (f : job -> bool) (l : list job) : nat := length (List.filter f l).
Lemma cnt_app f a b : cnt f (a ++ b) = cnt f a + cnt f b. Proof. unfold cnt. by rewrite List.filter_app, app_length. Qed.
Lemma cnt_none f l : (forall j, j ∈ l -> f j = false) -> cnt f l = 0.
Proof.
  intros H. unfold cnt. induction l as [|j l IH]; [done|]. cbn. rewrite (H j) by (by left). apply IH. intros j' Hj. apply H. by right.
Qed.
Definition pweight (p : phase) : nat := match p with Finished => 0 | Idle => 1 | Newline _ _ => 2 | Rendered _ _ _ => 3 | Anonymized _ _ => 4 | Holding _ => 5 end.
Definition mweight (m : marsh) : nat := pweight (m_phase m) + 10 * length (m_chan m).
Definition weight (l : list marsh) : nat := list_sum (map mweight l).
Lemma weight_insert l q m m' : l !! q = Some m -> mweight m' < mweight m -> weight (<[q := m']> l) < weight l.
Proof.
  revert q. induction l as [|x l IH]; intros [|q] H L; try discriminate H.
  - injection H as ->. unfold weight. cbn [insert list_insert map]. rewrite !list_sum_cons_eq. lia.
  - change (<[S q := m']> (x :: l)) with (x :: <[q := m']> l). unfold weight in *. cbn [map]. rewrite !list_sum_cons_eq. specialize (IH q H L). lia.
Qed.

Definition todo (y : sys) : nat := length (s_log (y_saver y)) - y_pc y.
Definition less (y' y : sys) : Prop :=
  let a := cnt big (y_jobs y) in let a' := cnt big (y_jobs y') in
  let b := cnt medium (y_jobs y) in let b' := cnt medium (y_jobs y') in
  let c := length (y_jobs y) in let c' := length (y_jobs y') in
  a' < a \/ (a' = a /\ (b' < b \/ (b' = b /\ (c' < c \/ (c' = c /\
    (todo y' < todo y \/ (todo y' = todo y /\ weight (y_marsh y') < weight (y_marsh y)))))))).
Lemma less_wf : well_founded less.
Proof.
  assert (G : forall a b c d e y, cnt big (y_jobs y) = a -> cnt medium (y_jobs y) = b -> length (y_jobs y) = c -> todo y = d -> weight (y_marsh y) = e -> Acc less y).
  { induction a as [a IHa] using lt_wf_ind. induction b as [b IHb] using lt_wf_ind. induction c as [c IHc] using lt_wf_ind.
    induction d as [d IHd] using lt_wf_ind. induction e as [e IHe] using lt_wf_ind. intros y Ea Eb Ec Ed Ee. constructor. intros y' H. unfold less in H. cbn zeta in H.
    destruct H as [H|(H1 & [H|(H2 & [H|(H3 & [H|(H4 & H)])])])].
    - eapply (IHa (cnt big (y_jobs y'))); [lia|reflexivity..].
    - eapply (IHb (cnt medium (y_jobs y'))); [lia|lia|reflexivity..].
    - eapply (IHc (length (y_jobs y'))); [lia|lia|lia|reflexivity..].
    - eapply (IHd (todo y')); [lia|lia|lia|lia|reflexivity..].
    - eapply (IHe (weight (y_marsh y'))); [lia|lia|lia|lia|lia|reflexivity]. }
  intros y. by eapply G.
Qed.
Lemma job_less view j s js : cnt big ((run_job w cf view j s).2 ++ js) < cnt big (j :: js) \/
  (cnt big ((run_job w cf view j s).2 ++ js) = cnt big (j :: js) /\
   (cnt medium ((run_job w cf view j s).2 ++ js) < cnt medium (j :: js) \/
    (cnt medium ((run_job w cf view j s).2 ++ js) = cnt medium (j :: js) /\ length ((run_job w cf view j s).2 ++ js) < length (j :: js)))).
Proof.
  assert (C : forall f, cnt f (j :: js) = (if f j then 1 else 0) + cnt f js) by (intros f; unfold cnt; cbn; by destruct (f j)).
  rewrite !C, !cnt_app. destruct j as [b|t m|t|km|t| |k|]; cbn [run_job big medium fst snd]; try (right; split; [reflexivity|right; split; [reflexivity|cbn; lia]]).
  - left. rewrite (cnt_none big); [lia|]. intros j Hj. rewrite !elem_of_app in Hj. destruct Hj as [Hj|[Hj|Hj]].
    + apply elem_of_list_In, in_map_iff in Hj as (? & <- & _). reflexivity.
    + apply elem_of_list_In, in_map_iff in Hj as (? & <- & _). reflexivity.
    + apply elem_of_list_singleton in Hj as ->. reflexivity.
  - right. destruct (end_round w s) as [r s1]. cbn [snd].
    assert (H : forall f, (forall km, f (JClose km) = false) -> f (JReport t) = false -> cnt f (map JClose r ++ [JReport t]) = 0).
    { intros f H1 H2. apply cnt_none. intros j Hj. apply elem_of_app in Hj as [Hj|Hj].
      - apply elem_of_list_In, in_map_iff in Hj as (? & <- & _). apply H1.
      - apply elem_of_list_singleton in Hj as ->. exact H2. }
    rewrite !H by done. split; [reflexivity|]. left. lia.
  - left. unfold range_keys. cbn [snd]. rewrite (cnt_none big); [lia|]. intros j Hj. apply elem_of_app in Hj as [Hj|Hj].
    + apply elem_of_list_In, in_map_iff in Hj as (? & <- & _). reflexivity.
    + apply elem_of_list_singleton in Hj as ->. reflexivity.
Qed.
Lemma step_less y y' : step y y' -> y_panic y' = true \/ less y' y.
Proof.
  assert (M1 : forall y q m m' y', y_marsh y !! q = Some m -> y_jobs y' = y_jobs y -> y_saver y' = y_saver y -> y_pc y' = y_pc y ->
    y_marsh y' = <[q := m']> (y_marsh y) -> mweight m' < mweight m -> less y' y).
  { clear y y'. intros y q m m' y' M E1 E2 E3 E4 L. unfold less, todo. cbn zeta. rewrite E1, E2, E3, E4. right. split; [done|]. right. split; [done|]. right. split; [done|]. right. split; [done|]. by eapply weight_insert. }
  intros H. destruct H as [y j js view A Pc J V|y a y' A L E|y q m t ts A M Ph C|y q m A M Ph C Cl|y q m wr A M Ph|y q m c wr raw A M Ph R
    |y q m c wr e A M Ph R|y q m c wr A M Ph|y q m c b wr A M Ph|y q m c wr A M Ph].
  - right. unfold less. cbn zeta. cbn [y_jobs with_saver]. rewrite J. destruct (job_less view j (y_saver y) js) as [H|(H1 & [H|(H2 & H)])].
    + by left.
    + right. split; [exact H1|]. by left.
    + right. split; [exact H1|]. right. split; [exact H2|]. by left.
  - right. destruct (exec_saver _ _ _ _ _ E) as (E1 & E2 & _). unfold less, todo. cbn zeta. cbn [y_jobs y_saver y_pc with_pc]. rewrite E1, E2.
    right. split; [done|]. right. split; [done|]. right. split; [done|]. left. apply lookup_lt_Some in L. lia.
  - right. eapply M1; [exact M|reflexivity..|]. unfold mweight. cbn [m_phase m_chan pweight]. rewrite Ph, C. cbn [pweight length]. lia.
  - destruct (y_wg y); [by left|]. right. eapply M1; [exact M|reflexivity..|]. unfold mweight. cbn [m_phase m_chan pweight]. rewrite Ph. cbn [pweight]. lia.
  - right. eapply M1; [exact M|reflexivity..|]. unfold mweight. cbn [m_phase m_chan pweight]. rewrite Ph. cbn [pweight]. lia.
  - right. eapply M1; [exact M|reflexivity..|]. unfold mweight. cbn [m_phase m_chan pweight]. rewrite Ph. cbn [pweight]. lia.
  - right. eapply M1; [exact M|reflexivity..|]. unfold mweight. cbn [m_phase m_chan pweight]. rewrite Ph. cbn [pweight]. lia.
  - right. eapply M1; [exact M|reflexivity..|]. unfold mweight. cbn [m_phase m_chan pweight]. rewrite Ph. cbn [pweight]. lia.
  - right. eapply M1; [exact M|reflexivity..|]. unfold mweight. cbn [m_phase m_chan pweight]. rewrite Ph. cbn [pweight]. lia.
  - right. eapply M1; [exact M|reflexivity..|]. unfold mweight. cbn [m_phase m_chan pweight]. rewrite Ph. cbn [pweight]. lia.
Qed.
Lemma step_alive y y' : step y y' -> y_panic y = false.
Proof. intros H. destruct H; match goal with A : alive _ |- _ => exact (proj1 A) end. Qed.
(** No execution goes on for ever. *)
Lemma terminates : well_founded (fun y' y => step y y').
Proof.
  intros y. induction y as [y IH] using (well_founded_induction less_wf). constructor. intros y' H.
  destruct (step_less y y' H) as [P|L]; [|by apply IH]. constructor. intros y2 H2. apply step_alive in H2. congruence.
Qed.
Lemma no_infinite (f : nat -> sys) : ~ (forall n, step (f n) (f (S n))).
Proof.
  intros H. assert (G : forall y, Acc (fun y' y => step y y') y -> forall n, f n <> y).
  { intros y A. induction A as [y _ IH]. intros n E. apply (IH (f (S n))) with (n := S n); [|reflexivity]. rewrite <- E. apply H. }
  exact (G (f 0) (terminates (f 0)) 0 eq_refl).
Qed.

End Terminates.

Section End_.
Variables (w : world) (cf : config) (cap : nat) (anon : bytes -> bytes) (line : archival -> bytes) (hline : metadata -> bytes).
Hypothesis Hlen : forall x, length (anon x) = length x.
Hypothesis Hn : 1 <= nmarsh cf.
Variable bs : list block.
Hypothesis Hcmp : all_comparable cf bs.
Notation step := (step w cf cap anon line hline).
Notation reachable := (reachable w cf cap anon line hline bs).
Notation image := (image anon line hline).
Notation file_line := (file_line anon line hline).
Notation contents := (contents anon line hline).
Notation final_file := (final_file anon line hline).

(** A file whose history is a beginning of the one it should have. *)
Definition image_of (D : list action) : option file :=
  match D with
  | ACreate _ path :: _ => Some (mkfile path (concat (map file_line D)) (negb (existsb is_closing D)))
  | _ => None
  end.
Lemma image_written D E wr q md recs path cl : D ++ E = written wr q md recs path cl -> image D = image_of D.
Proof.
  revert E. induction D as [|a D IH] using rev_ind; intros E H; [done|].
  rewrite <- app_assoc in H. specialize (IH _ H). cbn [app] in H. rewrite image_snoc, IH. clear IH.
  unfold written in H. destruct D as [|d0 D]; cbn [app] in H; injection H as -> H; [reflexivity|].
  cbn [app image_of map concat existsb]. rewrite map_app, concat_app, existsb_app. cbn [map concat existsb].
  rewrite app_nil_r. set (data := concat (map file_line D)).
  change (file_line (ACreate wr path)) with (@nil byte). change (is_closing (ACreate wr path)) with false. cbn [app orb].
  assert (Hcl : existsb is_closing D = false).
  { destruct (existsb is_closing D) eqn:X; [|done]. exfalso. apply existsb_exists in X as (x & Hx & Cx). apply elem_of_list_In in Hx.
    destruct D as [|d1 D]; [by apply elem_of_nil in Hx|]. cbn [app] in H. injection H as -> H.
    apply elem_of_cons in Hx as [->|Hx]; [discriminate Cx|].
    revert H. generalize recs. clear -Hx Cx. intros recs. revert recs. induction D as [|d D IH]; intros recs H; [by apply elem_of_nil in Hx|].
    destruct recs as [|r recs]; cbn in H.
    - destruct cl; [|discriminate H]. injection H as -> H. destruct D; discriminate H.
    - injection H as -> H. apply elem_of_cons in Hx as [->|Hx]; [discriminate Cx|]. by apply (IH Hx recs). }
  rewrite Hcl. cbn [negb orb]. rewrite orb_false_r.
  assert (Ha : starts a = false \/ exists w0 md0, a = AHeader w0 md0).
  { destruct D as [|d1 D]; cbn [app] in H; injection H as -> H; [right; by exists wr, md|]. left.
    assert (Hin : a ∈ map (fun m => ASend q (Some m) wr) recs ++ (if cl then [ASend q None wr] else [])) by (rewrite <- H; apply elem_of_app; right; by left).
    apply elem_of_app in Hin as [Hin|Hin].
    - apply elem_of_list_In, in_map_iff in Hin as (? & <- & _). reflexivity.
    - destruct cl; [|by apply elem_of_nil in Hin]. apply elem_of_list_singleton in Hin as ->. reflexivity. }
  destruct a as [| | | |w0 p| |w0 md0| |q0 [c|] w0| | | | | | | |]; cbn [image_step SpecSystem.file_line is_closing negb app shut f_path f_data].
  all: rewrite ?app_nil_r; try reflexivity.
  - destruct Ha as [Ha|(? & ? & Ha)]; discriminate Ha.
  - destruct (hidden anon (c_ar c)); cbn; [reflexivity|]. by rewrite app_nil_r.
Qed.

Lemma exec_prefix y wr : exists e, file_actions wr (s_log (y_saver y)) = file_actions wr (executed y) ++ e.
Proof. destruct (executed_log y) as [e E]. rewrite E, file_actions_app. by eexists. Qed.


(** The file of one writer, as its history so far. *)
Lemma file_state y wr : reachable y -> exists q m D, y_marsh y !! q = Some m /\
  file_actions wr (executed y) = D ++ map (as_send q) (mine wr (pending m)) /\
  y_files y !! wr = partial anon line (m_phase m) wr (image_of D).
Proof.
  intros Hr. destruct (all_invariants w cf cap anon line hline Hlen Hn bs y Hr) as (I1 & I2 & I3 & I4). pose proof I3 as (P & _).
  destruct (I2 P) as (_ & Hl & H3).
  destruct (owner_exists w cf anon hline Hlen Hn (y_saver y) wr (proj1 I1)) as (q & Lq & Ho).
  destruct (lookup_lt_is_Some_2 (y_marsh y) q ltac:(lia)) as [m M]. destruct (I4 wr q m M Ho) as (D & HD & HF).
  destruct (exec_prefix y wr) as [e Ee]. rewrite HD, <- app_assoc in Ee.
  assert (Im : image D = image_of D).
  { destruct (file_histories w cf (y_saver y) wr (proj1 I1)) as [F|(cl & q0 & k & md & recs & path & F & _)].
    - rewrite Ee in F. apply app_eq_nil in F as [-> _]. reflexivity.
    - rewrite F in Ee. symmetry in Ee. by eapply image_written. }
  exists q, m, D. rewrite <- Im. done.
Qed.
Lemma files_complete y wr : reachable y -> (forall q m, y_marsh y !! q = Some m -> pending m = []) -> y_files y !! wr = final_file wr (executed y).
Proof.
  intros Hr Hp. destruct (file_state y wr Hr) as (q & m & D & M & HD & HF). specialize (Hp q m M). rewrite Hp in HD. cbn in HD. rewrite app_nil_r in HD.
  rewrite HF, partial_other by (rewrite Hp; intros t Ht; by apply elem_of_nil in Ht).
  unfold SpecSystem.final_file, contents, ended_file, image_of. rewrite HD. reflexivity.
Qed.
Lemma files_prefix y wr : reachable y ->
  match y_files y !! wr with
  | None => forall path, ACreate wr path ∉ executed y
  | Some f => ACreate wr (f_path f) ∈ executed y /\ prefix (f_data f) (contents wr (executed y))
  end.
Proof.
  intros Hr. destruct (file_state y wr Hr) as (q & m & D & M & HD & HF). rewrite HF. unfold SpecSystem.contents. rewrite HD, map_app, concat_app.
  assert (Hin : forall path, ACreate wr path ∈ executed y <-> ACreate wr path ∈ file_actions wr (executed y)).
  { intros path. unfold file_actions. rewrite !elem_of_list_In, List.filter_In. cbn. rewrite Nat.eqb_refl. tauto. }
  assert (Hno : forall path, ACreate wr path ∉ map (as_send q) (mine wr (pending m))).
  { intros path H. apply elem_of_list_In, in_map_iff in H as ([? ?] & H & _). discriminate H. }
  destruct (match D with ACreate _ _ :: _ => true | _ => false end) eqn:Ed.
  - destruct D as [|[| | | |w0 path| | | | | | | | | | | |] D]; try discriminate Ed.
    assert (w0 = wr) as ->.
    { assert (H : ACreate w0 path ∈ file_actions wr (executed y)) by (rewrite HD; by left). unfold file_actions in H.
      apply elem_of_list_In, List.filter_In in H as [_ H]. by apply Nat.eqb_eq in H. }
    assert (HinC : ACreate wr path ∈ executed y) by (apply Hin; rewrite HD; by left).
    cbn [image_of]. unfold partial.
    set (f := mkfile _ _ _). set (data := concat (map file_line (ACreate wr path :: D))) in *.
    assert (Base : ACreate wr (f_path f) ∈ executed y /\ prefix (f_data f) (data ++ concat (map file_line (map (as_send q) (mine wr (pending m)))))).
    { split; [exact HinC|]. by apply prefix_app_r. }
    destruct (m_phase m) as [| | | |c w0|] eqn:Ph; try exact Base. destruct (Nat.eqb_spec w0 wr) as [->|_]; [|exact Base].
    destruct (hidden anon (c_ar c)) as [r|] eqn:Eh; [|exact Base]. cbn [put f_open f]. destruct (negb _); [|exact Base].
    cbn [f_path f_data f]. split; [exact HinC|]. unfold pending. rewrite Ph. cbn [inflight]. rewrite mine_app, mine_one. cbn [snd]. rewrite Nat.eqb_refl.
    cbn [app map concat]. unfold as_send at 1. cbn [fst snd SpecSystem.file_line]. rewrite Eh. apply prefix_app. apply prefix_app_r. by apply prefix_app_r.
  - assert (image_of D = None) as -> by (destruct D as [|[| | | |w0 path| | | | | | | | | | | |] D]; try discriminate Ed; reflexivity).
    assert (partial anon line (m_phase m) wr None = None) as ->.
    { unfold partial. destruct (m_phase m) as [| | | |c w0|]; try done. destruct (Nat.eqb w0 wr); [|done]. by destruct (hidden anon (c_ar c)). }
    intros path Hc. apply Hin in Hc. rewrite HD in Hc. apply elem_of_app in Hc as [Hc|Hc]; [|by eapply Hno].
    destruct (all_invariants w cf cap anon line hline Hlen Hn bs y Hr) as (I1 & _).
    destruct (exec_prefix y wr) as [e Ee]. rewrite HD, <- app_assoc in Ee.
    destruct (file_histories w cf (y_saver y) wr (proj1 I1)) as [F|(cl & q0 & k & md & recs & path' & F & _)].
    + rewrite Ee in F. apply app_eq_nil in F as [-> _]. by apply elem_of_nil in Hc.
    + rewrite Ee in F. destruct D as [|d D]; [by apply elem_of_nil in Hc|]. cbn in F. injection F as -> _. discriminate Ed.
Qed.

(** ** Progress *)
Lemma exec_idle a y : 1 <= cap -> (forall q m, y_marsh y !! q = Some m -> m_chan m = []) -> exists y', exec cap hline a y = Some y'.
Proof.
  intros Hcap H. destruct a as [| | | | | | | |q msg wr| | | | | | |q|]; cbn [exec]; try (by eexists).
  - destruct (y_marsh y !! q) as [m|] eqn:M; [|by eexists]. destruct (m_closed m); [by eexists|]. rewrite (H q m M). cbn [length].
    destruct (Nat.ltb_spec 0 cap); [by eexists|lia].
  - destruct (y_marsh y !! q) as [m|]; [|by eexists]. destruct (m_closed m); by eexists.
  - destruct (y_wg y); by eexists.
Qed.
Lemma anonymize_done raw : (exists h, anonymize anon raw = Ret h) \/ (exists e, anonymize anon raw = Fail e).
Proof.
  pose proof (anonymize_hidden anon raw Hlen) as H. destruct (anonymize anon raw) as [h|e| |]; [left; by exists h|right; by exists e|contradiction|contradiction].
Qed.
(** A marshaller can always go on, unless it waits for its channel or is done. *)
Definition busy (m : marsh) : bool :=
  match m_phase m with
  | Finished => false
  | Idle => match m_chan m with [] => m_closed m | _ => true end
  | _ => true
  end.
Lemma busy_step y q m : alive y -> y_marsh y !! q = Some m -> busy m = true -> exists y', step y y'.
Proof.
  intros A M B. unfold busy in B. destruct (m_phase m) as [|[[c|] wr]|c wr|c b wr|c wr|] eqn:Ph.
  - destruct (m_chan m) as [|t ts] eqn:C; eexists; [by eapply st_finish|by eapply st_take].
  - destruct (anonymize_done (match ar_raw (current (y_heap y) c) with Some b => b | None => [] end)) as [[h E]|[e E]].
    + eexists. eapply st_anon; [exact A|exact M|exact Ph|exact E].
    + eexists. eapply st_skip; [exact A|exact M|exact Ph|exact E].
  - eexists. by eapply st_close.
  - eexists. by eapply st_render.
  - eexists. by eapply st_write.
  - eexists. by eapply st_newline.
  - discriminate B.
Qed.
Lemma all_or_some (l : list marsh) : (forall q m, l !! q = Some m -> busy m = false) \/ exists q m, l !! q = Some m /\ busy m = true.
Proof.
  induction l as [|x l [IH|(q & m & H & B)]].
  - left. intros q m H. by rewrite lookup_nil in H.
  - destruct (busy x) eqn:B; [right; by exists 0, x|]. left. intros [|q] m H; [by injection H as <-|by eapply IH].
  - right. by exists (S q), m.
Qed.
Lemma finished_pending y q m : finished y -> y_marsh y !! q = Some m -> pending m = [].
Proof.
  intros (_ & _ & _ & _ & F) M. rewrite Forall_lookup in F. destruct (F q m M) as (P & C & _). unfold pending. by rewrite P, C.
Qed.
Lemma all_running l : count_running l = 0 -> forall q m, l !! q = Some m -> m_phase m = Finished.
Proof.
  intros H q m M. apply elem_of_list_lookup_2 in M. induction l as [|x l IH]; [by apply elem_of_nil in M|]. unfold count_running in *. cbn in H.
  destruct (running x) eqn:R; [discriminate H|]. apply elem_of_cons in M as [->|M]; [|by apply IH]. unfold running in R. by destruct (m_phase x).
Qed.
Lemma executed_all y : y_pc y = length (s_log (y_saver y)) -> executed y = s_log (y_saver y).
Proof. intros H. unfold executed. rewrite H. apply firstn_all. Qed.
(** Done.Wait() returns only when all is done. *)
Lemma wait_returns y : reachable y -> y_wg y = 0 -> finished y.
Proof.
  intros Hr Hw. destruct (all_invariants w cf cap anon line hline Hlen Hn bs y Hr) as (I1 & I2 & (P & Sh & G & W) & I4). rewrite Hw in W.
  destruct (existsb is_done (executed y)) eqn:Ed; [|discriminate W]. symmetry in W. cbn in W. pose proof (all_running _ W) as F.
  apply existsb_exists in Ed as (a & Ha & Da). destruct a; try discriminate Da. apply elem_of_list_In in Ha.
  assert (N : ~ chan_free (executed y)).
  { intros C. unfold chan_free in C. assert (existsb is_chan (executed y) = true) by (apply existsb_exists; exists ADone; split; [by apply elem_of_list_In|done]). congruence. }
  destruct Sh as [(C & _)|(Ej & l1 & C1 & El)].
  - exfalso. destruct (executed_log y) as [e E]. rewrite E in C. apply chan_free_app in C as [C _]. contradiction.
  - split; [exact P|]. split; [exact Ej|]. destruct (proj2 I1) as (Hpc & _).
    assert (Hp : y_pc y = length (s_log (y_saver y))).
    { destruct (Nat.eq_dec (y_pc y) (length (s_log (y_saver y)))) as [E|E]; [exact E|]. exfalso.
      assert (Hin : ADone ∈ removelast (s_log (y_saver y))).
      { unfold executed in Ha. rewrite removelast_firstn_len. rewrite <- (firstn_skipn (y_pc y) (firstn _ _)), firstn_firstn.
        rewrite Nat.min_l by lia. apply elem_of_app. left. exact Ha. }
      rewrite El, app_assoc, removelast_last in Hin. apply elem_of_app in Hin as [Hin|Hin].
      - unfold chan_free in C1. assert (existsb is_chan l1 = true) by (apply existsb_exists; exists ADone; split; [by apply elem_of_list_In|done]). congruence.
      - apply elem_of_list_In, in_map_iff in Hin as (? & Hin & _). discriminate Hin. }
    split; [exact Hp|]. split; [exact Hw|]. apply Forall_lookup. intros q m M. pose proof (F q m M) as Fp. destruct (G q m M) as [_ G2]. destruct (G2 Fp) as [Gc Gh]. done.
Qed.
Lemma progress y : 1 <= cap -> reachable y -> (exists y', step y y') \/ finished y \/ (s_dead (y_saver y) = true /\ y_pc y = length (s_log (y_saver y))).
Proof.
  intros Hcap Hr. destruct (all_invariants w cf cap anon line hline Hlen Hn bs y Hr) as (I1 & I2 & (P & Sh & G & W) & I4).
  destruct (decide (s_dead (y_saver y) = true /\ y_pc y = length (s_log (y_saver y)))) as [Dd|Dd]; [by right; right|].
  assert (A : alive y) by (split; [exact P|exact Dd]).
  destruct (all_or_some (y_marsh y)) as [B|(q & m & M & B)]; [|left; by eapply busy_step].
  assert (Ch : forall q m, y_marsh y !! q = Some m -> m_chan m = []).
  { intros q m M. specialize (B q m M). destruct (G q m M) as [_ G2]. unfold busy in B. destruct (m_phase m) eqn:Ph; try discriminate B.
    - destruct (m_chan m); [done|discriminate B].
    - by apply G2. }
  destruct (proj2 I1) as (Hpc & _). destruct (Nat.eq_dec (y_pc y) (length (s_log (y_saver y)))) as [E|E].
  2:{ left. destruct (lookup_lt_is_Some_2 (s_log (y_saver y)) (y_pc y) ltac:(lia)) as [a L]. destruct (exec_idle a y Hcap Ch) as [y' Ey].
      eexists. by eapply st_act. }
  destruct (y_jobs y) as [|j js] eqn:J.
  2:{ left. eexists. eapply (st_job _ _ _ _ _ _ y j js (current (y_heap y))); [exact A|exact E|exact J|]. intros c. apply sees_refl. }
  right. left. apply wait_returns; [exact Hr|]. rewrite (executed_all y E) in *.
  destruct Sh as [(_ & js & j & Ej & _)|(_ & l1 & C1 & El)]; [rewrite J in Ej; by destruct js|].
  rewrite W, El, existsb_app, existsb_app. cbn [existsb is_done]. rewrite !orb_true_r. cbn.
  unfold count_running. destruct (List.filter running (y_marsh y)) as [|x l] eqn:Ef; [done|]. exfalso.
  assert (Hx : x ∈ List.filter running (y_marsh y)) by (rewrite Ef; by left). apply elem_of_list_In, List.filter_In in Hx as [Hx Rx].
  apply elem_of_list_In, elem_of_list_lookup in Hx as [q M]. specialize (B q x M). destruct (G q x M) as [Gc _].
  assert (Hq : q < nmarsh cf). { destruct (I2 P) as (_ & Hl & _). apply lookup_lt_Some in M. lia. }
  assert (Cl : m_closed x = true).
  { rewrite Gc, El. apply existsb_exists. exists (ACloseChan q). split; [|cbn; apply Nat.eqb_refl]. apply in_or_app. right. apply in_or_app. left.
    apply in_map, in_seq. lia. }
  unfold busy in B. unfold running in Rx. rewrite Cl in B. destruct (m_phase x); try discriminate; destruct (m_chan x); discriminate.
Qed.

(** ** The end of an execution *)
Hypothesis Hpar : Forall (parses cf) bs.
Hypothesis Hfair : fair_order w.
Lemma final_dead : s_dead (message_saver_loop w cf bs) = false.
Proof. by apply survives_shutdown. Qed.
Lemma never_dead y : reachable y -> s_dead (y_saver y) = false.
Proof.
  intros Hr. destruct (s_dead (y_saver y)) eqn:E; [|done]. pose proof final_dead as F.
  rewrite <- (log_final w cf cap anon line hline Hlen Hn bs Hcmp y Hr (or_intror E)) in F. congruence.
Qed.
Lemma ends y : 1 <= cap -> reachable y -> exists y', rtc step y y' /\ finished y'.
Proof.
  intros Hcap Hr. induction (terminates w cf cap anon line hline y) as [y _ IH]. destruct (progress y Hcap Hr) as [(y' & St)|[F|[Dd _]]].
  - destruct (IH y' St) as (y2 & R2 & F2); [by eapply rtc_r|]. exists y2. split; [by eapply rtc_l|exact F2].
  - exists y. split; [apply rtc_refl|exact F].
  - rewrite (never_dead y Hr) in Dd. discriminate Dd.
Qed.
Lemma at_end y : reachable y -> finished y ->
  y_saver y = message_saver_loop w cf bs /\
  (forall wr, y_files y !! wr = final_file wr (s_log (message_saver_loop w cf bs))) /\
  (forall wr f, y_files y !! wr = Some f -> f_open f = false).
Proof.
  intros Hr Hf. pose proof Hf as (P & J & Pc & _).
  assert (E : y_saver y = message_saver_loop w cf bs) by (eapply log_final; [exact Hlen|exact Hn|exact Hcmp|exact Hr|by left]).
  assert (G : forall wr, y_files y !! wr = final_file wr (s_log (message_saver_loop w cf bs))).
  { intros wr. rewrite (files_complete y wr Hr); [|intros q m; by apply finished_pending]. by rewrite (executed_all y Pc), E. }
  split; [exact E|]. split; [exact G|]. intros wr f Hw. rewrite G in Hw. unfold SpecSystem.final_file in Hw.
  assert (Hd : s_dead (loop w cf bs new_saver) = false) by (apply survives; assumption).
  destruct (all_closed w cf bs wr Hn Hfair Hd) as [F|(q & k & md & recs & path & F & _)]; [rewrite F in Hw; discriminate Hw|].
  unfold ended_file in Hw. rewrite F in Hw. unfold written in Hw. cbn [app] in Hw. injection Hw as <-. cbn [f_open existsb is_closing orb].
  rewrite existsb_app. cbn. by rewrite orb_true_r.
Qed.
End End_.
