(** What the files contain at any moment of an execution. *)
From stdpp Require Import gmap.
From Coq Require Import NArith ZArith Lia.
From Verif Require Import GoBase GoBaseFacts GoTime Inetdiag Netlink SpecNetlink SpecCompare RecordFacts CompareFacts
  Cache SpecCache CacheFacts Saver SpecSaver SpecSystem SaverSteps SaverFiles SaverJobs SaverBlocks SaverRuns
  System SystemViews SystemJobs SystemInv.

Section Files.
Variables (w : world) (cf : config) (cap : nat) (anon : bytes -> bytes) (line : archival -> bytes) (hline : metadata -> bytes).
Hypothesis Hlen : forall x, length (anon x) = length x.
Hypothesis Hn : 1 <= nmarsh cf.
Notation step := (step w cf cap anon line hline).

(** One file as a function of the actions that concern it. *)
Definition put (b : bytes) (o : option file) : option file :=
  match o with Some f => if f_open f then Some (mkfile (f_path f) (f_data f ++ b) true) else o | None => None end.
Definition shut (o : option file) : option file :=
  match o with Some f => Some (mkfile (f_path f) (f_data f) false) | None => None end.
Definition image_step (o : option file) (a : action) : option file :=
  match a with
  | ACreate _ path => Some (mkfile path [] true)
  | AHeader _ md => put (hline md ++ nl) o
  | ASend _ None _ => shut o
  | ASend _ (Some c) _ => match hidden anon (c_ar c) with Some r => put (line r ++ nl) o | None => o end
  | _ => o
  end.
Definition image (D : list action) : option file := foldl image_step None D.
Lemma image_snoc D a : image (D ++ [a]) = image_step (image D) a.
Proof. unfold image. by rewrite foldl_app. Qed.
Lemma put_put a b o : put b (put a o) = put (a ++ b) o.
Proof. destruct o as [f|]; [|done]. cbn. destruct (f_open f) eqn:E; cbn; [by rewrite app_assoc|by rewrite E]. Qed.
Lemma write_same wr b fs : write wr b fs !! wr = put b (fs !! wr).
Proof. unfold write, put. destruct (fs !! wr) as [f|] eqn:E; [|done]. destruct (f_open f); [by rewrite lookup_insert|done]. Qed.
Lemma write_other wr wr' b fs : wr' <> wr -> write wr' b fs !! wr = fs !! wr.
Proof. intros N. unfold write. destruct (fs !! wr') as [f|]; [|done]. destruct (f_open f); [by rewrite lookup_insert_ne|done]. Qed.
Lemma close_same wr fs : close_file wr fs !! wr = shut (fs !! wr).
Proof. unfold close_file, shut. destruct (fs !! wr) as [f|] eqn:E; [by rewrite lookup_insert|done]. Qed.
Lemma close_other wr wr' fs : wr' <> wr -> close_file wr' fs !! wr = fs !! wr.
Proof. intros N. unfold close_file. destruct (fs !! wr') as [f|]; [by rewrite lookup_insert_ne|done]. Qed.

(** The line of which only the newline is missing. *)
Definition partial (p : phase) (wr : nat) (o : option file) : option file :=
  match p with
  | Newline c wr' => if Nat.eqb wr' wr then match hidden anon (c_ar c) with Some r => put (line r) o | None => o end else o
  | _ => o
  end.
Definition mine (wr : nat) (l : list task) : list task := List.filter (fun t => Nat.eqb t.2 wr) l.
Definition as_send (q : nat) (t : task) : action := ASend q t.1 t.2.
Definition owns (q wr : nat) (l : list action) : Prop := forall q' msg, ASend q' msg wr ∈ l -> q' = q.
Definition inv4 (y : sys) : Prop := forall wr q m, y_marsh y !! q = Some m -> owns q wr (s_log (y_saver y)) ->
  exists D, file_actions wr (executed y) = D ++ map (as_send q) (mine wr (pending m)) /\
    y_files y !! wr = partial (m_phase m) wr (image D).

Lemma mine_app wr a b : mine wr (a ++ b) = mine wr a ++ mine wr b. Proof. apply List.filter_app. Qed.
Lemma mine_one wr t : mine wr [t] = if Nat.eqb t.2 wr then [t] else []. Proof. reflexivity. Qed.
Lemma sends_in q t l : t ∈ sends q l -> ASend q t.1 t.2 ∈ l.
Proof.
  intros H. apply elem_of_list_omap in H as (a & Ha & H). destruct a as [| | | | | | | |q0 msg wr| | | | | | | |]; try discriminate H.
  destruct (Nat.eqb_spec q0 q) as [E|_]; [|discriminate H]. injection H as <-. subst q0. exact Ha.
Qed.
Lemma pending_owned y q0 m0 t q wr : inv2 cf anon line y -> y_panic y = false -> y_marsh y !! q0 = Some m0 -> t ∈ pending m0 -> t.2 = wr ->
  owns q wr (s_log (y_saver y)) -> q0 = q.
Proof.
  intros I P M T E O. pose proof (pending_in_log cf anon line y q0 m0 t I P M T) as H. apply sends_in in H.
  destruct (executed_log y) as [e EL]. apply (O q0 t.1). rewrite EL. apply elem_of_app. left. rewrite <- E. exact H.
Qed.
Lemma mine_nil wr l : (forall t, t ∈ l -> t.2 <> wr) -> mine wr l = [].
Proof.
  intros H. induction l as [|t l IH]; [done|]. unfold mine in *. cbn. destruct (Nat.eqb_spec t.2 wr) as [E|_].
  - exfalso. by apply (H t); [left|].
  - apply IH. intros t' Ht. apply H. by right.
Qed.
Lemma partial_other m wr o : (forall t, t ∈ pending m -> t.2 <> wr) -> partial (m_phase m) wr o = o.
Proof.
  intros H. unfold partial. unfold pending in H. destruct (m_phase m) as [| | | |c wr'|]; try reflexivity.
  destruct (Nat.eqb_spec wr' wr) as [E|_]; [|reflexivity]. exfalso. apply (H (Some c, wr')); [by left|exact E].
Qed.
(** Sends to a file come after its creation and header. *)
Definition starts (a : action) : bool := match a with ACreate _ _ | AHeader _ _ => true | _ => false end.
Lemma no_sends_before s l1 a l2 wr q msg : reached w cf s -> s_log s = l1 ++ a :: l2 -> starts a = true -> about wr a = true ->
  ASend q msg wr ∈ l1 -> False.
Proof using.
  intros R E S Ab Hin. assert (Hin' : ASend q msg wr ∈ file_actions wr l1).
  { apply elem_of_list_In, List.filter_In. split; [by apply elem_of_list_In|]. cbn. apply Nat.eqb_refl. }
  destruct (file_histories w cf s wr R) as [F|(cl & q0 & k & md & recs & path & F & _)].
  - rewrite E, file_actions_app in F. destruct (file_actions wr l1) as [|? ?]; [by apply elem_of_nil in Hin'|discriminate F].
  - rewrite E, file_actions_app in F. unfold file_actions in F at 2. cbn [List.filter] in F. rewrite Ab in F. unfold written in F.
    set (L := file_actions wr l1) in *. clearbody L. set (T := map _ recs ++ _) in F.
    assert (HT : forall x, x ∈ T -> starts x = false).
    { intros x Hx. unfold T in Hx. apply elem_of_app in Hx as [Hx|Hx].
      - apply elem_of_list_In, in_map_iff in Hx as (? & <- & _). reflexivity.
      - destruct cl; [|by apply elem_of_nil in Hx]. apply elem_of_list_singleton in Hx as ->. reflexivity. }
    clearbody T. destruct L as [|x1 [|x2 L]].
    + by apply elem_of_nil in Hin'.
    + cbn in F. injection F as -> F. apply elem_of_list_singleton in Hin'. discriminate Hin'.
    + cbn in F. injection F as -> -> F. assert (Ht : a ∈ T) by (rewrite <- F; apply elem_of_app; right; by left).
      rewrite (HT a Ht) in S. discriminate S.
Qed.

Lemma inv4_init bs : inv4 (initial cf bs).
Proof. intros wr q m H _. apply lookup_replicate in H as [-> _]. exists []. cbn. split; [done|apply lookup_empty]. Qed.

(** A marshaller works on one task: the files of other tasks, and other
    marshallers, are not affected. *)
Lemma inv4_marsh y q0 m0 m' y' : inv2 cf anon line y -> y_panic y = false -> inv4 y -> y_marsh y !! q0 = Some m0 -> y_saver y' = y_saver y -> y_pc y' = y_pc y ->
  y_marsh y' = <[q0 := m']> (y_marsh y) ->
  (forall wr, (forall t, t ∈ pending m0 -> t.2 <> wr) -> y_files y' !! wr = y_files y !! wr) ->
  (forall wr D, file_actions wr (executed y) = D ++ map (as_send q0) (mine wr (pending m0)) -> y_files y !! wr = partial (m_phase m0) wr (image D) ->
     exists D', D ++ map (as_send q0) (mine wr (pending m0)) = D' ++ map (as_send q0) (mine wr (pending m')) /\
       y_files y' !! wr = partial (m_phase m') wr (image D')) -> inv4 y'.
Proof.
  intros I2 P I M E1 E2 E3 Ho Hs wr q m. rewrite E1, E3, (executed_same y y' E1 E2). intros H O.
  apply insert_cases in H as [(-> & ->)|(N & H)].
  - destruct (I wr q0 m0 M O) as (D & HD & HF). destruct (Hs wr D HD HF) as (D' & HD' & HF'). exists D'. split; [|exact HF']. by rewrite HD.
  - destruct (I wr q m H O) as (D & HD & HF). exists D. split; [exact HD|]. rewrite Ho; [exact HF|].
    intros t Ht Et. apply N. symmetry. eapply pending_owned; [exact I2|exact P|exact M|exact Ht|exact Et|exact O].
Qed.

Lemma inv4_step y y' : inv1 w cf y -> inv2 cf anon line y -> inv3 cf y -> inv4 y -> step y y' -> inv4 y'.
Proof.
  intros I1 I2 I3 I H. pose proof I3 as (Pn & Sh & G & W).
  destruct (I2 Pn) as (H1 & H2 & H3).
  destruct H as [y j js view A Pc J V|y a y' A L E|y q m t ts A M Ph C|y q m A M Ph C Cl|y q m wr A M Ph|y q m c wr raw A M Ph R
    |y q m c wr e A M Ph R|y q m c wr A M Ph|y q m c b wr A M Ph|y q m c wr A M Ph].
  - intros wr q m M O. rewrite executed_job by done. cbn [y_marsh y_files with_saver y_saver] in *. apply I; [exact M|].
    intros q' msg Hin. destruct (log_grows w cf view j (y_saver y)) as [e Ee]. apply (O q' msg). rewrite Ee. apply elem_of_app. by left.
  - assert (X : executed (with_pc (S (y_pc y)) y') = executed y ++ [a]) by (by eapply executed_act).
    destruct (exec_saver _ _ _ _ _ E) as (E1 & _ & _ & _).
    pose proof (inv3_step w cf cap anon line hline Hlen Hn y (with_pc (S (y_pc y)) y') I1 I2 I3 (st_act _ _ _ _ _ _ _ _ _ A L E)) as (Pn' & _).
    cbn [y_panic with_pc] in Pn'.
    intros wr q m. rewrite X. clear X. cbn [y_marsh y_files with_pc y_saver]. rewrite E1. intros M O.
    rewrite file_actions_app.
    destruct (match a with ASend _ _ _ | ACreate _ _ | AHeader _ _ => true | _ => false end) eqn:Ea.
    2:{ assert (Ey : y_files y' = y_files y /\ exists m0, y_marsh y !! q = Some m0 /\ m_chan m0 = m_chan m /\ m_phase m0 = m_phase m).
        { destruct a as [| | | | | | | |? ? ?| | | | | | |q0|]; try discriminate Ea; cbn [exec] in E; try (injection E as <-; split; [done|by exists m]).
          - destruct (y_marsh y !! q0) as [m0|] eqn:M0; [|injection E as <-; discriminate Pn']. destruct (m_closed m0); [injection E as <-; discriminate Pn'|].
            injection E as <-. cbn in M |- *. split; [done|]. apply insert_cases in M as [(-> & ->)|(N & M)]; [by exists m0|by exists m].
          - destruct (y_wg y); injection E as <-; (split; [done|by exists m]). }
        destruct Ey as (-> & m0 & M0 & Ec & Ep).
        assert (Fa : file_actions wr [a] = []) by (destruct a; try discriminate Ea; reflexivity). rewrite Fa, app_nil_r.
        destruct (I wr q m0 M0 O) as (D & HD & HF). exists D. unfold pending in *. rewrite <- Ec, <- Ep. done. }
    destruct (match a with ASend _ _ _ => true | _ => false end) eqn:Es.
    + destruct a as [| | | | | | | |q0 msg wr0| | | | | | | |]; try discriminate Es. cbn [exec] in E.
      destruct (y_marsh y !! q0) as [m0|] eqn:M0; [|injection E as <-; discriminate Pn']. destruct (m_closed m0) eqn:Cl; [injection E as <-; discriminate Pn'|].
      destruct (_ <? _); [|discriminate E]. injection E as <-. cbn [y_marsh y_files with_marsh] in M |- *.
      assert (Hin : ASend q0 msg wr0 ∈ s_log (y_saver y)) by (apply elem_of_list_lookup; by exists (y_pc y)).
      unfold file_actions at 2. cbn [List.filter about]. apply insert_cases in M as [(-> & ->)|(N & M)].
      * destruct (I wr q0 m0 M0 O) as (D & HD & HF). exists D. unfold pending in *. cbn [m_phase m_chan]. split; [|exact HF].
        rewrite HD, app_assoc, (mine_app _ (_ ++ _)), mine_one, map_app, app_assoc. cbn [snd]. destruct (Nat.eqb wr0 wr); [|by rewrite !app_nil_r]. reflexivity.
      * destruct (I wr q m M O) as (D & HD & HF). exists D. destruct (Nat.eqb_spec wr0 wr) as [Ew|_]; [|by rewrite app_nil_r].
        exfalso. apply N. symmetry. apply (O q0 msg). rewrite <- Ew. exact Hin.
    + assert (Em : y_marsh y' = y_marsh y) by (destruct a; try discriminate Es; try discriminate Ea; cbn [exec] in E; injection E as <-; reflexivity).
      rewrite Em in M. destruct (I wr q m M O) as (D & HD & HF).
      destruct (about wr a) eqn:Ab.
      * assert (Fa : file_actions wr [a] = [a]) by (unfold file_actions; cbn [List.filter]; by rewrite Ab). rewrite Fa.
        assert (Z : forall t, t ∈ pending m -> t.2 <> wr).
        { intros t Ht Et. pose proof (pending_in_log cf anon line y q m t I2 Pn M Ht) as Hin. apply sends_in in Hin. rewrite Et in Hin.
          apply (no_sends_before (y_saver y) (executed y) a (drop (S (y_pc y)) (s_log (y_saver y))) wr q t.1 (proj1 I1)).
          - symmetry. by apply take_drop_middle.
          - destruct a; try discriminate Es; try discriminate Ea; reflexivity.
          - exact Ab.
          - exact Hin. }
        rewrite (mine_nil _ _ Z) in *. cbn [map] in *. rewrite app_nil_r in HD. exists (D ++ [a]). rewrite HD, app_nil_r. split; [done|].
        rewrite (partial_other m wr _ Z) in HF. rewrite (partial_other m wr _ Z), image_snoc.
        destruct a as [| | | |w0 p| |w0 md| | | | | | | | | |]; try discriminate Es; try discriminate Ea; cbn [exec] in E; injection E as <-; cbn [y_files with_files];
          cbn [about] in Ab; apply Nat.eqb_eq in Ab as ->.
        -- by rewrite lookup_insert.
        -- rewrite !write_same, put_put, HF. reflexivity.
      * assert (Fa : file_actions wr [a] = []) by (unfold file_actions; cbn [List.filter]; by rewrite Ab). rewrite Fa, app_nil_r. exists D. split; [exact HD|].
        rewrite <- HF.
        destruct a as [| | | |w0 p| |w0 md| | | | | | | | | |]; try discriminate Es; try discriminate Ea; cbn [exec] in E; injection E as <-; cbn [y_files with_files];
          cbn [about] in Ab; apply Nat.eqb_neq in Ab.
        -- by rewrite lookup_insert_ne.
        -- by rewrite !write_other.
  - eapply (inv4_marsh y q m); [exact I2|exact Pn|exact I|exact M|reflexivity..| |].
    + reflexivity.
    + intros wr D HD HF. exists D. unfold pending in *. rewrite Ph, C in *. split; [reflexivity|exact HF].
  - destruct (y_wg y) as [|n] eqn:Ew.
    { pose proof (inv3_step w cf cap anon line hline Hlen Hn y _ I1 I2 I3 (st_finish _ _ _ _ _ _ y q m A M Ph C Cl)) as (Pn' & _). rewrite Ew in Pn'. discriminate Pn'. }
    eapply (inv4_marsh y q m); [exact I2|exact Pn|exact I|exact M|reflexivity..| |].
    + reflexivity.
    + intros wr D HD HF. exists D. unfold pending in *. rewrite Ph in *. split; [reflexivity|exact HF].
  - eapply (inv4_marsh y q m); [exact I2|exact Pn|exact I|exact M|reflexivity..| |].
    + intros wr' Z. cbn. apply close_other. apply (Z (None, wr)). unfold pending. rewrite Ph. apply elem_of_list_here.
    + intros wr' D HD HF. unfold pending in *. rewrite Ph in *. cbn [inflight partial m_phase m_chan] in *. rewrite mine_app, map_app, mine_one. cbn [snd app y_files with_files goes_to with_marsh].
      destruct (Nat.eqb_spec wr wr') as [->|Nw].
      * exists (D ++ [as_send q (None, wr')]). cbn [map]. rewrite <- app_assoc. split; [reflexivity|]. rewrite close_same, HF, image_snoc. reflexivity.
      * exists D. split; [reflexivity|]. rewrite close_other by exact Nw. exact HF.
  - eapply (inv4_marsh y q m); [exact I2|exact Pn|exact I|exact M|reflexivity..| |].
    + reflexivity.
    + intros wr' D HD HF. exists D. unfold pending in *. rewrite Ph in *. split; [reflexivity|exact HF].
  - destruct (H3 q m M) as (_ & J2 & _).
    assert (Hh : hidden anon (c_ar c) = None).
    { assert (Eh : y_heap y !! c_uid c = None). { apply (J2 c wr). unfold waiting. rewrite Ph. apply elem_of_app. left. apply elem_of_list_here. }
      unfold current in R. rewrite Eh in R. change (anonymize anon (header (c_ar c)) = Fail e) in R.
      pose proof (anonymize_hidden anon (header (c_ar c)) Hlen) as Ah. rewrite R in Ah. unfold hidden. by rewrite Ah. }
    eapply (inv4_marsh y q m); [exact I2|exact Pn|exact I|exact M|reflexivity..| |].
    + reflexivity.
    + intros wr' D HD HF. unfold pending in *. rewrite Ph in *. cbn [inflight partial m_phase m_chan] in *. rewrite mine_app, map_app, mine_one. cbn [snd app y_files goes_to with_marsh].
      destruct (Nat.eqb_spec wr wr') as [->|Nw].
      * exists (D ++ [as_send q (Some c, wr')]). cbn [map]. rewrite <- app_assoc. split; [reflexivity|]. rewrite HF, image_snoc. cbn. rewrite Hh; reflexivity.
      * exists D. split; [reflexivity|exact HF].
  - eapply (inv4_marsh y q m); [exact I2|exact Pn|exact I|exact M|reflexivity..| |].
    + reflexivity.
    + intros wr' D HD HF. exists D. unfold pending in *. rewrite Ph in *. split; [reflexivity|exact HF].
  - destruct (H3 q m M) as (_ & _ & J3). rewrite Ph in J3. destruct J3 as (r & F1 & F2).
    eapply (inv4_marsh y q m); [exact I2|exact Pn|exact I|exact M|reflexivity..| |].
    + intros wr' Z. cbn. apply write_other. apply (Z (Some c, wr)). unfold pending. rewrite Ph. apply elem_of_list_here.
    + intros wr' D HD HF. exists D. unfold pending in *. rewrite Ph in *. cbn [inflight partial m_phase m_chan y_files with_files goes_to with_marsh] in *. split; [reflexivity|].
      destruct (Nat.eqb_spec wr wr') as [->|Nw].
      * rewrite write_same, HF, F1, F2. reflexivity.
      * rewrite write_other by exact Nw. exact HF.
  - destruct (H3 q m M) as (_ & _ & J3). rewrite Ph in J3. destruct J3 as [r F1].
    eapply (inv4_marsh y q m); [exact I2|exact Pn|exact I|exact M|reflexivity..| |].
    + intros wr' Z. cbn. apply write_other. apply (Z (Some c, wr)). unfold pending. rewrite Ph. apply elem_of_list_here.
    + intros wr' D HD HF. unfold pending in *. rewrite Ph in *. cbn [inflight partial m_phase m_chan y_files with_files goes_to with_marsh] in *.
      rewrite mine_app, map_app, mine_one. cbn [snd].
      destruct (Nat.eqb_spec wr wr') as [->|Nw].
      * exists (D ++ [as_send q (Some c, wr')]). cbn [map]. rewrite <- app_assoc. split; [reflexivity|]. rewrite write_same, HF, image_snoc. cbn. rewrite F1. apply put_put.
      * exists D. split; [reflexivity|]. rewrite write_other by exact Nw. exact HF.
Qed.

Lemma all_invariants bs y : reachable w cf cap anon line hline bs y -> inv1 w cf y /\ inv2 cf anon line y /\ inv3 cf y /\ inv4 y.
Proof.
  intros H. apply (rtc_ind_r (R := step) (fun y => inv1 w cf y /\ inv2 cf anon line y /\ inv3 cf y /\ inv4 y) (initial cf bs)).
  - split; [apply inv1_init|]. split; [apply inv2_init|]. split; [apply inv3_init|apply inv4_init].
  - intros y1 y2 _ St (I1 & I2 & I3 & I4). split; [by eapply inv1_step|]. split; [by eapply inv2_step|]. split; [by eapply inv3_step|by eapply inv4_step].
  - exact H.
Qed.
End Files.
