(** Between two polls the saver goroutine and its marshallers come to rest, and
    then the files hold all that was to be written. *)
From stdpp Require Import gmap.
From Coq Require Import NArith ZArith Lia.
From Verif Require Import GoBase GoBaseFacts GoTime Inetdiag Netlink SpecNetlink SpecCompare RecordFacts CompareFacts
  Cache SpecCache CacheFacts Saver SpecSaver SpecSystem SpecRest SaverSteps SaverFiles SaverJobs SaverBlocks SaverRuns SaverHistory
  System SystemViews SystemJobs SystemInv SystemFiles SystemRefine SystemEnd.

Section Rest.
Variables (w : world) (cf : config) (cap : nat) (anon : bytes -> bytes) (line : archival -> bytes) (hline : metadata -> bytes).
Hypothesis Hlen : forall x, length (anon x) = length x.
Hypothesis Hn : 1 <= nmarsh cf.
Variable bs : list block.
Hypothesis Hcmp : all_comparable cf bs.
Notation step := (step w cf cap anon line hline).
Notation reachable := (reachable w cf cap anon line hline bs).

Definition inner (js : list job) : Prop := Forall (fun j => outside j = false) js.
Lemma inner_filter js : inner js -> List.filter outside js = [].
Proof. intros H. induction H as [|j js Hj H IH]; [done|]. cbn. by rewrite Hj. Qed.
Lemma inner_app a b : inner a -> inner b -> inner (a ++ b).
Proof. intros. by apply Forall_app. Qed.
Lemma inner_map {A} (f : A -> job) l : (forall x, outside (f x) = false) -> inner (map f l).
Proof. intros H. induction l; constructor; auto. Qed.
Lemma inner_job view j s : inner (run_job w cf view j s).2.
Proof.
  destruct j as [b|t m|t|km|t| |k|]; cbn [run_job snd]; try (by constructor).
  - repeat apply inner_app; [by apply inner_map|by apply inner_map|by repeat constructor].
  - destruct (end_round w s). cbn [snd]. apply inner_app; [by apply inner_map|by repeat constructor].
  - unfold range_keys. cbn [snd]. apply inner_app; [by apply inner_map|by repeat constructor].
Qed.

Definition inv6 (y : sys) : Prop :=
  (exists n small, n <= length bs /\ y_jobs y = small ++ map JBlock (drop n bs) ++ [JShutdown] /\ inner small /\
     run_all w cf small (y_saver y) = loop w cf (take n bs) new_saver) \/ inner (y_jobs y).
Lemma inv6_init : inv6 (initial cf bs).
Proof. left. exists 0, []. split; [lia|]. split; [reflexivity|]. split; [by constructor|reflexivity]. Qed.
Lemma loop_snoc l b s : loop w cf (l ++ [b]) s = do_block w cf c_ar b (loop w cf l s).
Proof. unfold loop. by rewrite foldl_app. Qed.
Lemma inv6_step y y' : inv1 w cf y -> inv2 cf anon line y -> inv5 w cf bs y -> inv6 y -> step y y' -> inv6 y'.
Proof.
  intros I1 I2 I5 I H. destruct (step_saver _ _ _ _ _ _ _ _ H) as [(j & js & view & A & Pc & J & V & ->)|(E1 & E2 & _)].
  2:{ unfold inv6. rewrite E1, E2. exact I. }
  pose proof (alive_saver _ A Pc) as Hd.
  pose proof (view_irrelevant w cf cap anon line Hlen Hn bs y j js view I1 I2 (proj1 A) I5 J V) as Ev.
  unfold inv6. cbn [y_jobs y_saver with_saver]. rewrite Ev. destruct I as [(n & small & Ln & E & Si & R)|Si].
  2:{ right. rewrite J in Si. inversion Si; subst. apply inner_app; [apply inner_job|done]. }
  destruct small as [|j0 small]; cbn [app] in E.
  - destruct (drop n bs) as [|b rest] eqn:D; cbn [map app] in E; rewrite J in E; injection E as -> ->.
    + right. rewrite app_nil_r. apply inner_job.
    + left. assert (Hl : bs !! n = Some b).
      { assert (X : drop n bs !! 0 = Some b) by (rewrite D; done). rewrite lookup_drop, Nat.add_0_r in X. exact X. }
      exists (S n), (run_job w cf c_ar (JBlock b) (y_saver y)).2. apply lookup_lt_Some in Hl as Hlt. split; [lia|]. split; [|split; [apply inner_job|]].
      * f_equal. replace (drop (S n) bs) with rest; [reflexivity|]. replace (S n) with (n + 1) by lia. rewrite <- drop_drop, D. reflexivity.
      * rewrite (take_S_r _ _ _ Hl), loop_snoc, <- R. cbn [run_all foldl]. rewrite job_all_run by exact Hd. reflexivity.
  - rewrite J in E. injection E as -> ->. left. exists n, ((run_job w cf c_ar j0 (y_saver y)).2 ++ small). inversion Si; subst.
    split; [exact Ln|]. split; [by rewrite app_assoc|]. split; [apply inner_app; [apply inner_job|done]|].
    rewrite run_all_app, job_all_run by exact Hd. exact R.
Qed.
Lemma rounds y : reachable y -> inv6 y.
Proof.
  intros H. cut (inv1 w cf y /\ inv2 cf anon line y /\ inv5 w cf bs y /\ inv6 y); [intros (_ & _ & _ & ?); done|].
  apply (rtc_ind_r (R := step) (fun y => inv1 w cf y /\ inv2 cf anon line y /\ inv5 w cf bs y /\ inv6 y) (initial cf bs)).
  - split; [by apply inv1_init|]. split; [by apply inv2_init|]. split; [by apply inv5_init|apply inv6_init].
  - intros y1 y2 _ St (I1 & I2 & I3 & I4). split; [by eapply inv1_step|]. split; [by eapply inv2_step|]. split; [by eapply inv5_step|by eapply inv6_step].
  - exact H.
Qed.

Lemma count_blocks small : inner small -> List.filter (fun j => match j with JBlock _ => true | _ => false end) small = [].
Proof. intros H. induction H as [|j js Hj H IH]; [done|]. cbn. by destruct j. Qed.
Lemma count_left (l : list block) : List.filter (fun j => match j with JBlock _ => true | _ => false end) (map JBlock l ++ [JShutdown]) = map JBlock l.
Proof. induction l as [|b l IH]; [done|]. cbn. by rewrite IH. Qed.
Lemma received_left y n small : n <= length bs -> y_jobs y = small ++ map JBlock (drop n bs) ++ [JShutdown] -> inner small -> received bs y = take n bs.
Proof.
  intros Ln E S. unfold received. rewrite E, List.filter_app, (count_blocks small S), count_left. cbn [app].
  rewrite map_length, drop_length. f_equal. lia.
Qed.
Lemma received_all y : inner (y_jobs y) -> received bs y = bs.
Proof. intros S. unfold received. rewrite (count_blocks _ S). cbn [length]. rewrite Nat.sub_0_r. apply firstn_all. Qed.

(** A marshaller with something to do can do it whatever the saver waits for. *)
Lemma busy_alone y q m : alive y -> y_marsh y !! q = Some m -> busy m = true -> exists y', step y y' /\ y_jobs y' = y_jobs y.
Proof.
  intros A M B. unfold busy in B. destruct (m_phase m) as [|[[c|] wr]|c wr|c b wr|c wr|] eqn:Ph.
  - destruct (m_chan m) as [|t ts] eqn:C; eexists; [split; [by eapply st_finish|by destruct (y_wg y)]|split; [by eapply st_take|done]].
  - destruct (anonymize_done anon Hlen (match ar_raw (current (y_heap y) c) with Some b => b | None => [] end)) as [[h E]|[e E]]; eexists.
    + split; [eapply st_anon; [exact A|exact M|exact Ph|exact E]|done].
    + split; [eapply st_skip; [exact A|exact M|exact Ph|exact E]|done].
  - eexists. split; [by eapply st_close|done].
  - eexists. split; [by eapply st_render|done].
  - eexists. split; [by eapply st_write|done].
  - eexists. split; [by eapply st_newline|done].
  - discriminate B.
Qed.
Lemma exec_jobs a y y' : exec cap hline a y = Some y' -> y_jobs y' = y_jobs y.
Proof. intros E. by destruct (exec_saver _ _ _ _ _ E) as (_ & E2 & _). Qed.

Hypothesis Hcap : 1 <= cap.
Hypothesis Hpar : Forall (parses cf) bs.
Hypothesis Hfair : fair_order w.
Definition calm (y : sys) : Prop :=
  (forall q m, y_marsh y !! q = Some m -> busy m = false) /\ y_pc y = length (s_log (y_saver y)) /\
  match y_jobs y with [] => True | j :: _ => outside j = true end.
Lemma calm_or_step y : reachable y -> calm y \/ exists y', alone w cf cap anon line hline y y'.
Proof.
  intros Hr. pose proof (never_dead w cf cap anon line hline Hlen Hn bs Hcmp Hpar Hfair y Hr) as Hd.
  destruct (all_invariants w cf cap anon line hline Hlen Hn bs y Hr) as (I1 & I2 & (P & Sh & G & W) & I4).
  assert (A : alive y) by (split; [exact P|intros [X _]; congruence]).
  destruct (all_or_some (y_marsh y)) as [B|(q & m & M & B)].
  2:{ right. destruct (busy_alone y q m A M B) as (y' & St & E). exists y'. split; [exact St|]. unfold to_come. by rewrite E. }
  assert (Ch : forall q m, y_marsh y !! q = Some m -> m_chan m = []).
  { intros q m M. specialize (B q m M). destruct (G q m M) as [_ G2]. unfold busy in B. destruct (m_phase m) eqn:Ph; try discriminate B.
    - destruct (m_chan m); [done|discriminate B].
    - by apply G2. }
  destruct (proj2 I1) as (Hpc & _). destruct (Nat.eq_dec (y_pc y) (length (s_log (y_saver y)))) as [E|E].
  2:{ right. destruct (lookup_lt_is_Some_2 (s_log (y_saver y)) (y_pc y) ltac:(lia)) as [a L]. destruct (exec_idle cf cap hline Hn a y Hcap Ch) as [y' Ey].
      exists (with_pc (S (y_pc y)) y'). split; [by eapply st_act|]. unfold to_come. cbn [y_jobs with_pc]. by rewrite (exec_jobs _ _ _ Ey). }
  destruct (y_jobs y) as [|j js] eqn:J; [left; unfold calm; by rewrite J|]. destruct (outside j) eqn:O; [left; unfold calm; by rewrite J|]. right.
  eexists. split; [eapply (st_job _ _ _ _ _ _ y j js (current (y_heap y))); [exact A|exact E|exact J|]; intros c; apply sees_refl|].
  unfold to_come. cbn [y_jobs with_saver]. rewrite List.filter_app, (inner_filter _ (inner_job _ _ _)), J. cbn. by rewrite O.
Qed.
Lemma calm_rest y : calm y -> at_rest w cf cap anon line hline y.
Proof.
  clear Hn Hcap. intros (B & Pc & Hj) y' (St & T).
  destruct St as [y j js view A P J V|y a y' A L E|y q m t ts A M P C|y q m A M P C Cl|y q m wr A M P|y q m c wr raw A M P R
    |y q m c wr e A M P R|y q m c wr A M P|y q m c b wr A M P|y q m c wr A M P].
  1:{ rewrite J in Hj. unfold to_come in T. cbn [y_jobs with_saver] in T. rewrite List.filter_app, (inner_filter _ (inner_job _ _ _)), J in T.
      cbn [app List.filter] in T. rewrite Hj in T. apply (f_equal length) in T. cbn in T. lia. }
  1:{ apply lookup_lt_Some in L. lia. }
  all: specialize (B q m M); unfold busy in B; rewrite P in B; try rewrite C in B; congruence.
Qed.
Lemma rest y : reachable y -> at_rest w cf cap anon line hline y ->
  (forall q m, y_marsh y !! q = Some m -> pending m = []) /\ y_pc y = length (s_log (y_saver y)) /\
  match y_jobs y with [] => True | j :: _ => outside j = true end.
Proof.
  intros Hr Q. destruct (calm_or_step y Hr) as [(B & C)|(y' & St)]; [|by destruct (Q y')]. split; [|exact C].
  destruct (all_invariants w cf cap anon line hline Hlen Hn bs y Hr) as (_ & _ & (_ & _ & G & _) & _).
  intros q m M. specialize (B q m M). destruct (G q m M) as [_ G2]. unfold busy in B. unfold pending. destruct (m_phase m) eqn:Ph; try discriminate B.
  - by destruct (m_chan m).
  - by destruct (G2 eq_refl) as [_ ->] || (destruct (G2 eq_refl) as [-> _]).
Qed.
(** What is there then. *)
Lemma rest_state y : reachable y -> at_rest w cf cap anon line hline y ->
  y_saver y = (if match y_jobs y with [] => true | _ => false end then message_saver_loop w cf bs else loop w cf (received bs y) new_saver) /\
  (y_jobs y = [] -> received bs y = bs) /\
  (forall wr, y_files y !! wr = final_file anon line hline wr (s_log (y_saver y))).
Proof.
  intros Hr Q. destruct (rest y Hr Q) as (Hp & Pc & Hj). split; [|split].
  - destruct (y_jobs y) as [|j js] eqn:J.
    + eapply log_final; [exact Hlen|exact Hn|exact Hcmp|exact Hr|by left].
    + destruct (rounds y Hr) as [(n & small & Ln & E & S & R)|S].
      * rewrite (received_left y n small Ln E S). destruct small as [|j0 small]; [exact R|]. rewrite J in E. injection E as -> _.
        inversion S; subst. congruence.
      * rewrite J in S. inversion S; subst. congruence.
  - intros J. apply received_all. rewrite J. by constructor.
  - intros wr. rewrite (files_complete w cf cap anon line hline Hlen Hn bs y wr Hr Hp). by rewrite (executed_all y Pc).
Qed.
(** Rest is reached. *)
Lemma rest_reached y : reachable y -> exists y', rtc (alone w cf cap anon line hline) y y' /\ at_rest w cf cap anon line hline y'.
Proof.
  intros Hr. induction (terminates w cf cap anon line hline y) as [y _ IH].
  destruct (calm_or_step y Hr) as [C|(y' & St)]; [exists y; split; [apply rtc_refl|by apply calm_rest]|].
  destruct (IH y' (proj1 St)) as (y2 & R2 & F2); [eapply rtc_r; [exact Hr|exact (proj1 St)]|]. exists y2. split; [by eapply rtc_l|exact F2].
Qed.
End Rest.

(** ** Shutting down writes nothing *)
Section Quiet.
Variables (w : world) (cf : config) (anon : bytes -> bytes) (line : archival -> bytes) (hline : metadata -> bytes).
Definition mute (a : action) : Prop := (forall an li hl, file_line an li hl a = []) /\ is_create a = false.
Definition adds_mute (s s' : saver) : Prop := exists e, s_log s' = s_log s ++ e /\ Forall mute e.
Lemma mute_refl s : adds_mute s s. Proof. exists []. by rewrite app_nil_r. Qed.
Lemma mute_trans a b c : adds_mute a b -> adds_mute b c -> adds_mute a c.
Proof. intros (e1 & E1 & F1) (e2 & E2 & F2). exists (e1 ++ e2). rewrite E2, E1, app_assoc. split; [done|by apply Forall_app]. Qed.
Lemma mute_emit a s : mute a -> adds_mute s (emit a s).
Proof. intros H. exists [a]. split; [done|by apply Forall_singleton]. Qed.
Lemma mute_same s s' : s_log s' = s_log s -> adds_mute s s'.
Proof. intros E. exists []. by rewrite app_nil_r. Qed.
Lemma mute_end_conn k s : adds_mute s (end_conn w cf k s).
Proof.
  unfold end_conn. destruct (now w s) as [t s1] eqn:En.
  assert (N : adds_mute s s1) by (unfold now in En; injection En as <- <-; eexists [_]; (split; [reflexivity|by apply Forall_singleton])).
  eapply mute_trans; [exact N|]. eapply mute_trans; [apply (mute_emit (AClose t k)); done|].
  destruct (Nat.eqb _ _); [by apply mute_same|]. destruct (s_conns _ !! k) as [c|]; [|apply mute_refl].
  destruct (cn_writer c) as [wr|]; [|apply mute_refl]. eexists [_]. split; [reflexivity|by apply Forall_singleton].
Qed.
Lemma mute_fold {A} (f : saver -> A -> saver) l s : (forall s x, adds_mute s (f s x)) -> adds_mute s (foldl f s l).
Proof. intros H. revert s. induction l as [|x l IH]; intros s; [apply mute_refl|]. cbn. eapply mute_trans; [apply H|apply IH]. Qed.
Lemma mute_close s : adds_mute s (close w cf s).
Proof.
  unfold close. destruct (s_dead s); [apply mute_refl|]. unfold range_keys.
  match goal with |- adds_mute _ (close_chans _ (foldl ?f ?s0 ?l)) => apply mute_trans with (b := s0); [by apply mute_same|]; apply mute_trans with (b := foldl f s0 l) end.
  - apply mute_fold. intros s1 k. unfold end_conn_alive. destruct (s_dead s1); [apply mute_refl|apply mute_end_conn].
  - unfold close_chans. destruct (s_dead _); [apply mute_refl|]. 
    match goal with |- adds_mute _ (emit _ (foldl ?f ?s0 ?l)) => apply mute_trans with (b := foldl f s0 l) end; [|by apply (mute_emit ADone)].
    apply mute_fold. intros s1 q. by apply (mute_emit (ACloseChan q)).
Qed.
Lemma mute_contents wr e : Forall mute e -> contents anon line hline wr e = [].
Proof.
  intros F. unfold contents, file_actions. induction F as [|a e (Ha & _) F IH]; [done|]. cbn [List.filter]. destruct (about wr a); [|exact IH].
  cbn [map concat]. by rewrite Ha.
Qed.
Lemma shutdown_contents wr bs : contents anon line hline wr (s_log (message_saver_loop w cf bs)) = contents anon line hline wr (s_log (loop w cf bs new_saver)).
Proof.
  unfold message_saver_loop. destruct (mute_close (loop w cf bs new_saver)) as (e & -> & F). unfold contents. rewrite file_actions_app, map_app, concat_app.
  fold (contents anon line hline wr e). by rewrite (mute_contents wr e F), app_nil_r.
Qed.
Lemma shutdown_creates wr path bs : ACreate wr path ∈ s_log (message_saver_loop w cf bs) <-> ACreate wr path ∈ s_log (loop w cf bs new_saver).
Proof.
  unfold message_saver_loop. destruct (mute_close (loop w cf bs new_saver)) as (e & -> & F). rewrite elem_of_app. split; [|by left].
  intros [H|H]; [exact H|]. rewrite Forall_forall in F. destruct (F _ H) as [_ X]. discriminate X.
Qed.
End Quiet.

Section Together.
Variables (w : world) (cf : config) (cap : nat) (anon : bytes -> bytes) (line : archival -> bytes) (hline : metadata -> bytes).
Hypothesis Hlen : forall x, length (anon x) = length x.
Hypothesis Hn : 1 <= nmarsh cf.
Variable bs : list block.
Hypothesis Hcmp : all_comparable cf bs.
Hypothesis Hcap : 1 <= cap.
Hypothesis Hpar : Forall (parses cf) bs.
Hypothesis Hfair : fair_order w.
Lemma in_file_actions wr path l : ACreate wr path ∈ l <-> ACreate wr path ∈ file_actions wr l.
Proof. unfold file_actions. rewrite !elem_of_list_In, List.filter_In. cbn. rewrite Nat.eqb_refl. tauto. Qed.
Lemma as_if_shut_down y : reachable w cf cap anon line hline bs y -> at_rest w cf cap anon line hline y ->
  forall wr, match y_files y !! wr with
  | Some f => f_data f = contents anon line hline wr (s_log (message_saver_loop w cf (received bs y))) /\
              ACreate wr (f_path f) ∈ s_log (message_saver_loop w cf (received bs y))
  | None => forall path, ACreate wr path ∉ s_log (message_saver_loop w cf (received bs y))
  end.
Proof.
  intros Hr Q wr. destruct (rest_state w cf cap anon line hline Hlen Hn bs Hcmp Hcap Hpar Hfair y Hr Q) as (E & R & F).
  destruct (all_invariants w cf cap anon line hline Hlen Hn bs y Hr) as (I1 & _).
  assert (G : contents anon line hline wr (s_log (message_saver_loop w cf (received bs y))) = contents anon line hline wr (s_log (y_saver y)) /\
    forall path, ACreate wr path ∈ s_log (message_saver_loop w cf (received bs y)) <-> ACreate wr path ∈ s_log (y_saver y)).
  { destruct (y_jobs y) as [|j js]; [rewrite (R eq_refl), E; done|]. rewrite E. split; [apply shutdown_contents|intros path; apply shutdown_creates]. }
  destruct G as [-> G]. rewrite F. unfold final_file.
  destruct (file_histories w cf (y_saver y) wr (proj1 I1)) as [H|(cl & q & k & md & recs & path & H & _)].
  - rewrite H. intros path. rewrite G, in_file_actions, H. apply not_elem_of_nil.
  - rewrite H. cbn [written app]. split; [done|]. cbn [f_path]. rewrite G, in_file_actions, H. by left.
Qed.
Lemma concat_in {A} (x : list A) l : x ∈ l -> exists a b, concat l = a ++ x ++ b.
Proof.
  intros H. apply elem_of_list_split in H as (l1 & l2 & ->). exists (concat l1), (concat l2). rewrite concat_app. reflexivity.
Qed.
Lemma lines_there y : reachable w cf cap anon line hline bs y -> at_rest w cf cap anon line hline y ->
  forall q c wr r, ASend q (Some c) wr ∈ s_log (message_saver_loop w cf (received bs y)) -> hidden anon (c_ar c) = Some r ->
  exists f a b, y_files y !! wr = Some f /\ f_data f = a ++ (line r ++ [x0a]) ++ b.
Proof.
  intros Hr Q q c wr r Hin Hh. destruct (rest_state w cf cap anon line hline Hlen Hn bs Hcmp Hcap Hpar Hfair y Hr Q) as (E & R & F).
  destruct (all_invariants w cf cap anon line hline Hlen Hn bs y Hr) as (I1 & _).
  assert (Hi : ASend q (Some c) wr ∈ s_log (y_saver y)).
  { destruct (y_jobs y) as [|j js]; [by rewrite E; rewrite (R eq_refl) in Hin|]. rewrite E.
    unfold message_saver_loop in Hin. destruct (mute_close w cf (loop w cf (received bs y) new_saver)) as (e & Ee & Fe). rewrite Ee in Hin.
    apply elem_of_app in Hin as [Hin|Hin]; [exact Hin|]. rewrite Forall_forall in Fe. destruct (Fe _ Hin) as [X _]. specialize (X anon line hline).
    cbn in X. rewrite Hh in X. by destruct (line r). }
  assert (Hf : ASend q (Some c) wr ∈ file_actions wr (s_log (y_saver y))).
  { unfold file_actions. apply elem_of_list_In, List.filter_In. split; [by apply elem_of_list_In|]. cbn. apply Nat.eqb_refl. }
  assert (Hl : line r ++ [x0a] ∈ map (file_line anon line hline) (file_actions wr (s_log (y_saver y)))).
  { apply elem_of_list_In, in_map_iff. exists (ASend q (Some c) wr). split; [cbn; by rewrite Hh|by apply elem_of_list_In]. }
  destruct (concat_in _ _ Hl) as (a & b & C).
  specialize (F wr). unfold final_file in F.
  destruct (file_histories w cf (y_saver y) wr (proj1 I1)) as [H|(cl & q0 & k & md & recs & path & H & _)]; [rewrite H in Hf; by apply elem_of_nil in Hf|].
  rewrite H in F. cbn [written app] in F. eexists _, a, b. split; [exact F|]. cbn [f_data]. unfold contents. exact C.
Qed.
End Together.

(** ** How far the files can be behind *)
Section Backlog.
Variables (w : world) (cf : config) (cap : nat) (anon : bytes -> bytes) (line : archival -> bytes) (hline : metadata -> bytes).
Hypothesis Hlen : forall x, length (anon x) = length x.
Hypothesis Hn : 1 <= nmarsh cf.
Variable bs : list block.
Definition short (y : sys) : Prop := forall q m, y_marsh y !! q = Some m -> length (m_chan m) <= cap.
Lemma short_marsh y q m m' : short y -> y_marsh y !! q = Some m -> length (m_chan m') <= cap -> forall q' m0, <[q := m']> (y_marsh y) !! q' = Some m0 -> length (m_chan m0) <= cap.
Proof.
  intros S M L q' m0 H. destruct (decide (q = q')) as [->|Ne]; [|rewrite list_lookup_insert_ne in H by done; by eapply S].
  rewrite list_lookup_insert in H by (by eapply lookup_lt_Some). by injection H as <-.
Qed.
Lemma short_step y y' : short y -> step w cf cap anon line hline y y' -> short y'.
Proof.
  intros S H. destruct H as [y j js view A P J V|y a y' A L E|y q m t ts A M P C|y q m A M P C Cl|y q m wr A M P|y q m c wr raw A M P R
    |y q m c wr e A M P R|y q m c wr A M P|y q m c b wr A M P|y q m c wr A M P].
  1: exact S.
  1:{ destruct a; cbn [exec] in E; try (injection E as <-; exact S).
      - destruct (y_marsh y !! q) as [m|] eqn:M; [|injection E as <-; exact S]. destruct (m_closed m); [injection E as <-; exact S|].
        destruct (Nat.ltb_spec (length (m_chan m)) cap) as [Lt|]; [|discriminate E]. injection E as <-.
        unfold short. cbn. apply (short_marsh y q m); [exact S|exact M|]. cbn. rewrite app_length. cbn. lia.
      - destruct (y_marsh y !! q) as [m|] eqn:M; [|injection E as <-; exact S]. destruct (m_closed m); [injection E as <-; exact S|].
        injection E as <-. unfold short. cbn. apply (short_marsh y q m); [exact S|exact M|]. cbn. by eapply S.
      - destruct (y_wg y); injection E as <-; exact S. }
  1:{ unfold short. cbn. apply (short_marsh y q m); [exact S|exact M|]. cbn. pose proof (S q m M) as X. rewrite C in X. cbn in X. lia. }
  1:{ destruct (y_wg y); [exact S|]. unfold short. cbn. apply (short_marsh y q m); [exact S|exact M|]. cbn. by eapply S. }
  all: unfold short; cbn; apply (short_marsh y q m); [exact S|exact M|]; cbn; by eapply S.
Qed.
Lemma short_reachable y : reachable w cf cap anon line hline bs y -> short y.
Proof.
  intros H. apply (rtc_ind_r (R := step w cf cap anon line hline) short (initial cf bs)); [|intros y1 y2 _ St I; by eapply short_step|exact H].
  intros q m M. cbn in M. apply lookup_replicate in M as [-> _]. cbn. lia.
Qed.
Lemma inflight_one p : length (inflight p) <= 1.
Proof. destruct p; cbn; lia. Qed.
Lemma backlog y : reachable w cf cap anon line hline bs y ->
  exists late : list (list task), length late = nmarsh cf /\ Forall (fun l => length l <= S cap) late /\
  forall wr f, y_files y !! wr = Some f -> exists q l finished more, late !! q = Some l /\
    file_actions wr (firstn (y_pc y) (s_log (y_saver y))) = finished ++ map (fun t => ASend q t.1 t.2) (List.filter (fun t => Nat.eqb t.2 wr) l) /\
    f_data f = concat (map (file_line anon line hline) finished) ++ more.
Proof.
  intros Hr. exists (map pending (y_marsh y)).
  destruct (all_invariants w cf cap anon line hline Hlen Hn bs y Hr) as (_ & I2 & (P & _) & _). destruct (I2 P) as (_ & Hl & _).
  split; [by rewrite map_length|]. split.
  - apply Forall_lookup. intros q l H. rewrite list_lookup_fmap in H. destruct (y_marsh y !! q) as [m|] eqn:M; [|discriminate H]. injection H as <-.
    unfold pending. rewrite app_length. pose proof (short_reachable y Hr q m M). pose proof (inflight_one (m_phase m)). lia.
  - intros wr f F. destruct (file_state w cf cap anon line hline Hlen Hn bs y wr Hr) as (q & m & D & M & HD & HF).
    rewrite F in HF. exists q, (pending m), D.
    assert (X : exists more, f_data f = concat (map (file_line anon line hline) D) ++ more).
    { assert (G : forall f0, image_of anon line hline D = Some f0 -> f_data f0 = concat (map (file_line anon line hline) D)).
      { intros f0 H. destruct D as [|[] D]; try discriminate H. injection H as <-. reflexivity. }
      unfold partial in HF. destruct (image_of anon line hline D) as [f0|] eqn:Ei.
      2:{ destruct (m_phase m); try discriminate HF. destruct (Nat.eqb _ _); [|discriminate HF]. destruct (hidden anon _); discriminate HF. }
      specialize (G f0 eq_refl).
      assert (B : Some f = Some f0 -> exists more, f_data f = concat (map (file_line anon line hline) D) ++ more).
      { intros [= ->]. exists []. by rewrite app_nil_r. }
      destruct (m_phase m); try (by apply B). destruct (Nat.eqb _ _); [|by apply B]. destruct (hidden anon _); [|by apply B].
      cbn [put] in HF. destruct (f_open f0); [|by apply B]. injection HF as ->. cbn [f_data]. rewrite G. by eexists. }
    destruct X as [more X]. exists more. split; [by rewrite list_lookup_fmap, M|]. split; [exact HD|exact X].
Qed.
End Backlog.
