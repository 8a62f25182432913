(** What follows from the invariants of the event server's mutex and wait group, and
    the refinement of EventServer.v. *)
From stdpp Require Import gmap.
From Coq Require Import NArith ZArith Lia.
From Verif Require Import GoBase EventName EventServer EventLock SpecLock LockFacts.

#[global] Instance rpc_eq : EqDecision rpc.
Proof. solve_decision. Defined.
Section Lock.
Variable marshal : flow_event -> option bytes.
Notation goes := (goes marshal).
Notation fine_step := (fine_step marshal).
Notation fine_reachable := (fine_reachable marshal).
Ltac fields := cbn [x_cancelled x_buf x_closed x_lclosed x_clients x_lock x_n x_s x_c x_rem x_closers x_next x_wg x_crashed x_log
  p_n p_s p_c p_tasks p_buf p_clients p_lock p_next p_closed p_lclosed p_cancelled p_crashed p_log wg_add p_rem] in *.
(** ** At most one goroutine is at the map *)
Lemma touches_inside g f : touches g f -> inside g f = true.
Proof. destruct g as [| |i]; cbn; [by destruct (x_n f)|by destruct (x_s f)|]. destruct (x_rem f !! i) as [[c []]|]; naive_solver. Qed.
Lemma exclusive f g g' : fine_reachable f -> touches g f -> touches g' f -> g = g'.
Proof.
  intros R T T'. pose proof (inv_reachable marshal f R) as I. apply touches_inside, (i_lock _ I) in T. apply touches_inside, (i_lock _ I) in T'. congruence.
Qed.
Lemma holder_touches f g : fine_reachable f -> touches g f -> x_lock f = Some g.
Proof. intros R T. apply (i_lock _ (inv_reachable marshal f R)). by apply touches_inside. Qed.
Lemma wants_not_holds f g : fine_reachable f -> wants g f -> x_lock f <> Some g.
Proof.
  intros R T H. apply (i_lock _ (inv_reachable marshal f R)) in H. destruct g as [| |i]; cbn in *; [by destruct (x_n f)|by destruct (x_s f)|]. destruct (x_rem f !! i) as [[c []]|]; naive_solver.
Qed.

(** ** The holder of the lock can go on, and gives it back *)
Definition left_to_do (g : who) (f : fine) : nat :=
  match g with
  | Notify => match x_n f with FIter _ => size (x_clients f) + 3 | FSend _ l => size (x_clients f) - length l + 2 | FUnlock => 1 | _ => 0 end
  | Serve => match x_s f with GStore _ => 2 | GUnlock => 1 | _ => 0 end
  | Remover i => match x_rem f !! i with Some (_, RLook) => 3 | Some (_, RDelete) => 2 | Some (_, RUnlock) => 1 | _ => 0 end
  end.
Lemma visited_size f line l : inv f -> x_n f = FSend line l -> length l <= size (x_clients f).
Proof.
  intros I E. destruct (i_vis _ I line l E) as [Nd H]. assert (Sz : size (list_to_set l : gset nat) = length l) by (by apply size_list_to_set).
  rewrite <- Sz. apply subseteq_size. intros c Hc. apply elem_of_list_to_set in Hc. by apply H.
Qed.
Lemma holder_moves f g : inv f -> x_lock f = Some g -> exists f', goes g f f' /\ left_to_do g f' < left_to_do g f /\ x_crashed f' = x_crashed f /\ (left_to_do g f' = 0 -> x_lock f' = None) /\ (0 < left_to_do g f' -> x_lock f' = Some g).
Proof.
  intros I L. pose proof L as L0. apply (i_lock _ I) in L. destruct g as [| |i]; cbn [inside left_to_do] in *.
  - destruct (x_n f) as [| | | | |d|line l| | |] eqn:En; try discriminate L.
    + eexists. split; [by apply fn_iter|]. fields. cbn [length]. split; [lia|]. split; [done|]. split; [lia|done].
    + destruct (decide (x_clients f ⊆ list_to_set l)) as [Sub|Ns].
      * exists (p_n FUnlock f). split; [apply (fn_over _ f line l En)|fields; split; [lia|]; split; [done|]; split; [lia|done]].
        intros c Hc. apply Sub, elem_of_list_to_set in Hc. exact Hc.
      * assert (Ex : exists c, c ∈ x_clients f /\ c ∉ l).
        { destruct (decide (x_clients f ∖ list_to_set l = ∅)) as [E0|E0].
          - destruct Ns. intros c Hc. destruct (decide (c ∈ (list_to_set l : gset nat))) as [H|H]; [exact H|]. exfalso.
            assert (X : c ∈ x_clients f ∖ list_to_set l) by (apply elem_of_difference; done). rewrite E0 in X. by apply elem_of_empty in X.
          - apply set_choose_L in E0 as [c Hc]. apply elem_of_difference in Hc as [H1 H2]. exists c. split; [exact H1|]. by rewrite elem_of_list_to_set in H2. }
        destruct Ex as (c & Hc & Hl). pose proof (i_vis _ I line l En) as [Nd Vi].
        assert (Sz : S (length l) <= size (x_clients f)).
        { assert (Sz : size (list_to_set (c :: l) : gset nat) = length (c :: l)) by (apply size_list_to_set; by constructor).
          change (S (length l)) with (length (c :: l)). rewrite <- Sz. apply subseteq_size. intros c0 H0. apply elem_of_list_to_set, elem_of_cons in H0 as [->|H0]; [done|by apply Vi]. }
        eexists. split; [apply (fn_fail marshal f line l c 0 En Hc Hl); [lia|done]|]. fields. cbn [length]. split; [lia|]. split; [done|]. split; [lia|done].
    + eexists. split; [by apply fn_unlock|]. fields. split; [lia|]. split; [done|]. split; [done|lia].
  - destruct (x_s f) as [| | | | | |c| | | |] eqn:Es; try discriminate L.
    + eexists. split; [by apply (fg_store f c)|]. fields. split; [lia|]. split; [done|]. split; [lia|done].
    + eexists. split; [by apply fg_unlock|]. fields. split; [lia|]. split; [done|]. split; [done|lia].
  - destruct (x_rem f !! i) as [[c []]|] eqn:E; try discriminate L.
    all: pose proof (lookup_lt_Some _ _ _ E) as Lt.
    + destruct (decide (c ∈ x_clients f)) as [Hc|Hc].
      * eexists. split; [by apply (fr_present i f c)|]. fields. rewrite list_lookup_insert by done. split; [lia|]. split; [done|]. split; [lia|done].
      * eexists. split; [by apply (fr_absent i f c)|]. fields. rewrite list_lookup_insert by done. split; [lia|]. split; [done|]. split; [lia|done].
    + eexists. split; [by apply (fr_delete i f c)|]. fields. rewrite list_lookup_insert by done. split; [lia|]. split; [done|]. split; [lia|done].
    + eexists. split; [by apply (fr_unlock i f c)|]. fields. rewrite list_lookup_insert by done. split; [lia|]. split; [done|]. split; [done|lia].
Qed.
(** Each step of the holder brings it nearer to the release; steps of others do not
    put it off. *)
Lemma holder_nearer f f' g : inv f -> x_lock f = Some g -> goes g f f' -> x_lock f' = None \/ (x_lock f' = Some g /\ left_to_do g f' < left_to_do g f).
Proof.
  intros I L S. pose proof L as L0. apply (i_lock _ I) in L. destruct g as [| |i]; cbn [inside left_to_do goes] in *.
  - destruct S as [En|En Ea|En Ea|e r d En Eb Em|e r En Eb Em|En Eb Ec|d En El|d En|line l c En Hc Hl Hg|line l c n En Hc Hl Hn Hg|line l En Ha|En|En];
      rewrite En in *; try discriminate L; fields; cbn [length]; try (by left); right; (split; [done|]); try lia.
    + pose proof (i_vis _ I line l En) as [Nd Vi].
      assert (Sz : size (list_to_set (c :: l) : gset nat) = length (c :: l)) by (apply size_list_to_set; by constructor).
      assert (length (c :: l) <= size (x_clients f)); [|cbn in *; lia]. rewrite <- Sz. apply subseteq_size. intros c0 H0. apply elem_of_list_to_set, elem_of_cons in H0 as [->|H0]; [done|by apply Vi].
    + pose proof (i_vis _ I line l En) as [Nd Vi].
      assert (Sz : size (list_to_set (c :: l) : gset nat) = length (c :: l)) by (apply size_list_to_set; by constructor).
      assert (length (c :: l) <= size (x_clients f)); [|cbn in *; lia]. rewrite <- Sz. apply subseteq_size. intros c0 H0. apply elem_of_list_to_set, elem_of_cons in H0 as [->|H0]; [done|by apply Vi].
  - destruct S as [Es|Es|Es|Es Ea|Es Ea|Es El|c Es El|c Es|Es|Es|Es]; rewrite Es in *; try discriminate L; fields; try (by left); right; (split; [done|]); lia.
  - destruct S as [c E|c E El|c E Hc|c E Hc|c E|c E|c E]; rewrite E in *; try discriminate L; pose proof (lookup_lt_Some _ _ _ E) as Lt; fields; try (by left);
      right; (split; [done|]); rewrite list_lookup_insert by done; lia.
Qed.
Lemma released f g : fine_reachable f -> x_crashed f = false -> x_lock f = Some g -> exists f', rtc (fun a b => x_crashed a = false /\ goes g a b) f f' /\ x_lock f' = None.
Proof.
  intros R C L. remember (left_to_do g f) as n eqn:En. revert f R C L En. induction n as [n IH] using lt_wf_ind. intros f R C L ->.
  destruct (holder_moves f g (inv_reachable marshal f R) L) as (f1 & S & Lt & Cr & Z & P).
  assert (R1 : fine_reachable f1) by (eapply rtc_r; [exact R|]; by eapply by_goroutine).
  destruct (left_to_do g f1) as [|k] eqn:E.
  - exists f1. split; [|by apply Z]. apply rtc_once. done.
  - destruct (IH (Datatypes.S k)) with (f := f1) as (f' & S' & L'); [lia|exact R1|congruence|apply P; lia|done|]. exists f'. split; [|exact L']. eapply rtc_l; [|exact S']. done.
Qed.
(** Others leave the holder where it is. *)
Lemma others_leave f f' g : inv f -> x_lock f = Some g -> fine_step f f' -> (exists g', goes g' f f' /\ g' = g) \/ (x_lock f' = Some g /\ left_to_do g f' = left_to_do g f).
Proof.
  intros I L S. pose proof L as In. apply (i_lock _ I) in In. destruct S as [g' f' _ S|f' _ S|f' _ S|f' _ S].
  - destruct (decide (g' = g)) as [->|N]; [left; by exists g|]. right. pose proof (inside_other g f I In g' N) as Out.
    destruct g' as [| |i]; cbn [goes inside] in *.
    + destruct S as [En|En Ea|En Ea|e r d En Eb Em|e r En Eb Em|En Eb Ec|d En El|d En|line l c En Hc Hl Hg|line l c n En Hc Hl Hn Hg|line l En Ha|En|En];
        rewrite En in *; try discriminate Out; try congruence; unfold wg_done; try (match goal with |- context[match x_wg f with _ => _ end] => destruct (x_wg f) end); fields; (split; [done|]); destruct g as [| |j]; try done.
    + destruct S as [Es|Es|Es|Es Ea|Es Ea|Es El|c Es El|c Es|Es|Es|Es]; rewrite Es in *; try discriminate Out; try congruence; unfold wg_done; try (match goal with |- context[match x_wg f with _ => _ end] => destruct (x_wg f) end); fields; (split; [done|]);
        destruct g as [| |j]; try done.
      all: cbn in In; rewrite (i_n _ I Es) in In; discriminate In.
    + destruct S as [c E|c E El|c E Hc|c E Hc|c E|c E|c E]; rewrite E in *; try discriminate Out; try congruence; unfold wg_done; try (match goal with |- context[match x_wg f with _ => _ end] => destruct (x_wg f) end); fields; (split; [done|]);
        destruct g as [| |j]; try done; unfold left_to_do; fields; (rewrite list_lookup_insert_ne; [reflexivity|congruence]).
  - right. destruct S as [Ec Ea|Ec|Ec|Ec]; unfold wg_done; try (match goal with |- context[match x_wg f with _ => _ end] => destruct (x_wg f) end); fields; (split; [done|]); by destruct g.
  - right. destruct S as [l1 c l2 E]; fields. split; [done|]. by destruct g.
  - right. destruct S as [e Ec Eb|e Ec| |Es El|Es El]; fields; (split; [done|]); destruct g; try done; cbn in In; rewrite Es in In; discriminate In.
Qed.

(** ** Refinement of EventServer.v *)
Definition rn (n : fnpc) (cl : gset nat) (p : npc) : Prop :=
  match n with
  | FNone | FAdd | FTest | FUnlock => p = NTest
  | FRecv => p = NRecv
  | FLock d | FIter d => p = NLock d
  | FSend line l => exists todo, p = NSend line todo /\ NoDup todo /\ forall c, c ∈ todo <-> c ∈ cl /\ c ∉ l
  | FDone | FEnd => p = NEnd
  end.
Definition rs (n : fspc) : spc :=
  match n with
  | GNotify | GAdd | GCleanup | GTest | GUnlock => STest
  | GAccept => SAccept
  | GLock c | GStore c => SAdd c
  | GCancel | GDone | GEnd => SEnd
  end.
Definition rc (n : fcpc) : cpc :=
  match n with KNone | KWait => CWait | KListener => CListener | KChan => CChan | KDone | KEnd => CEnd end.
Definition pend1 (r : nat * rpc) : option nat := match snd r with RAdd | RLock | RLook | RDelete => Some (fst r) | _ => None end.
Definition pend (l : list (nat * rpc)) : list nat := omap pend1 l.
Record R (f : fine) (s : state) : Prop := mkR {
  r_outer : outer_fine f = outer_of s; r_next : x_next f = next s; r_closers : x_closers f = closers s;
  r_n : rn (x_n f) (x_clients f) (np s); r_s : sp s = rs (x_s f); r_c : cp s = rc (x_c f); r_rem : removers s = pend (x_rem f) }.
Lemma R_init : R finit init.
Proof. by split. Qed.
Lemma pend_app a b : pend (a ++ b) = pend a ++ pend b.
Proof. apply omap_app. Qed.
Lemma pend_insert l i r r' : l !! i = Some r -> pend (<[i := r']> l) = pend (take i l) ++ pend [r'] ++ pend (drop (S i) l).
Proof.
  intros H. pose proof (lookup_lt_Some _ _ _ H) as Lt. rewrite insert_take_drop by done. change (r' :: drop (S i) l) with ([r'] ++ drop (S i) l). by rewrite !pend_app.
Qed.
Lemma pend_split l i r : l !! i = Some r -> pend l = pend (take i l) ++ pend [r] ++ pend (drop (S i) l).
Proof.
  intros H. rewrite <- (take_drop_middle _ _ _ H) at 1. change (r :: drop (S i) l) with ([r] ++ drop (S i) l). by rewrite !pend_app.
Qed.
Lemma pend_same l i r r' : l !! i = Some r -> pend1 r = pend1 r' -> pend (<[i := r']> l) = pend l.
Proof. intros H E. rewrite (pend_insert l i r r' H), (pend_split l i r H). unfold pend at 2 5. cbn. by rewrite E. Qed.
Lemma sim f f' s : inv f -> R f s -> fine_step f f' -> exists s', (s' = s \/ step marshal s s') /\ R f' s'.
Proof.
  intros I Rf S. destruct Rf as [Eo Ex Ek En Es Ec Er]. destruct s as [can b clo lcl cli n sv cl rm ks nx cr lg].
  unfold outer_fine, outer_of in Eo. cbn [cancelled buf closed lclosed clients np sp cp removers closers next crashed log] in *. injection Eo as <- <- <- <- <- <- <-. subst nx ks sv cl rm.
  destruct S as [g f' Cr S|f' Cr S|f' Cr S|f' Cr S].
  - destruct g as [| |i]; cbn [EventLock.goes] in S.
    + destruct S as [E|E Ea|E Ea|e r d E Eb Em|e r E Eb Em|E Eb Ecl|d E El|d E|line l c E Hc Hl Hg|line l c m E Hc Hl Hn Hg|line l E Ha|E|E]; rewrite E in En; cbn [rn] in En.
      * eexists. split; [by left|]. subst n. by split.
      * subst n. eexists. split; [right; apply by_server; [done|]; by apply n_continue|]. by split.
      * subst n. eexists. split; [right; apply by_server; [done|]; by apply n_end|]. by split.
      * subst n. eexists. split; [right; apply by_server; [done|]; by apply (n_event _ _ e r d)|]. by split.
      * subst n. eexists. split; [right; apply by_server; [done|]; by apply (n_bad _ _ e r)|]. by split.
      * subst n. eexists. split; [right; apply by_server; [done|]; by apply n_nil|]. by split.
      * subst n. eexists. split; [by left|]. by split.
      * subst n. eexists. split; [right; apply by_server; [done|]; by apply n_lock|]. split; try done. cbn. eexists. split; [done|]. split; [apply NoDup_elements|].
        intros c. rewrite elem_of_elements. split; [intros H; split; [done|]; apply not_elem_of_nil|by intros [H _]].
      * destruct En as (todo & -> & Nd & Hin). assert (Hc' : c ∈ todo) by (by apply Hin). apply elem_of_list_split in Hc' as (l1 & l2 & ->).
        eexists. split; [right; apply by_server; [done|]; by apply (n_write _ _ line l1 c l2)|]. split; try done. cbn. eexists. split; [done|].
        apply NoDup_app in Nd as (N1 & Nx & N2). apply NoDup_cons in N2 as [Nc N2]. split.
        { apply NoDup_app. split; [done|]. split; [|done]. intros x Hx Hx2. apply (Nx x Hx). by apply elem_of_cons; right. }
        intros c0. specialize (Hin c0). rewrite elem_of_app, elem_of_cons in Hin. rewrite elem_of_app, elem_of_cons. split.
        { intros H. destruct Hin as [Hin _]. destruct Hin as [H1 H2]; [tauto|]. split; [done|]. intros [->|H3]; [|done]. destruct H as [H|H]; [|done]. apply (Nx c H). apply elem_of_cons. by left. }
        intros [H1 H2]. destruct Hin as [_ Hin]. destruct Hin as [H|[->|H]]; [split; [done|tauto]|tauto|tauto|tauto].
      * destruct En as (todo & -> & Nd & Hin). assert (Hc' : c ∈ todo) by (by apply Hin). apply elem_of_list_split in Hc' as (l1 & l2 & ->).
        eexists. split; [right; apply by_server; [done|]; by apply (n_fail _ _ line l1 c l2 m)|]. split; try done.
        2:{ cbn. by rewrite pend_app. }
        cbn. eexists. split; [done|].
        apply NoDup_app in Nd as (N1 & Nx & N2). apply NoDup_cons in N2 as [Nc N2]. split.
        { apply NoDup_app. split; [done|]. split; [|done]. intros x Hx Hx2. apply (Nx x Hx). by apply elem_of_cons; right. }
        intros c0. specialize (Hin c0). rewrite elem_of_app, elem_of_cons in Hin. rewrite elem_of_app, elem_of_cons. split.
        { intros H. destruct Hin as [Hin _]. destruct Hin as [H1 H2]; [tauto|]. split; [done|]. intros [->|H3]; [|done]. destruct H as [H|H]; [|done]. apply (Nx c H). apply elem_of_cons. by left. }
        intros [H1 H2]. destruct Hin as [_ Hin]. destruct Hin as [H|[->|H]]; [split; [done|tauto]|tauto|tauto|tauto].
      * destruct En as (todo & -> & Nd & Hin). assert (todo = []) as ->.
        { destruct todo as [|c todo]; [done|]. exfalso. destruct (Hin c) as [[H1 H2] _]; [by left|]. by apply H2, Ha. }
        eexists. split; [right; apply by_server; [done|]; by apply (n_unlock _ _ line)|]. by split.
      * subst n. eexists. split; [by left|]. by split.
      * subst n. destruct (wg_pos f I) as (k & Ek & Cn); [unfold counted; rewrite E; lia|]. eexists. split; [by left|]. unfold wg_done. rewrite Ek. by split.
    + destruct S as [E|E|E|E Ea|E Ea|E El|c E El|c E|E|E|E]; rewrite E; cbn [rs].
      * rewrite (i_n _ I E) in En. cbn [rn] in En. subst n. eexists. split; [by left|]. by split.
      * eexists. split; [by left|]. by split.
      * eexists. split; [by left|]. pose proof (i_c _ I) as K. rewrite E in K. rewrite (K eq_refl). by split.
      * eexists. split; [right; apply by_server; [done|]; by apply s_continue|]. by split.
      * eexists. split; [right; apply by_server; [done|]; by apply s_end|]. by split.
      * eexists. split; [right; apply by_server; [done|]; by apply s_error|]. by split.
      * eexists. split; [by left|]. by split.
      * assert (Out : inside Notify f = false) by (apply (inside_other Serve f I); [cbn; by rewrite E|done]). cbn in Out.
        eexists. split; [right; apply by_server; [done|]; apply (s_add _ _ c); [done|]|].
        { unfold mutex_free. cbn. destruct (x_n f); cbn [rn] in En; try discriminate Out; by subst n. }
        split; try done. cbn. destruct (x_n f); cbn [rn] in *; try discriminate Out; done.
      * eexists. split; [by left|]. by split.
      * assert (Ca : x_cancelled f = true) by (apply (i_ctx _ I); tauto). eexists. split; [by left|]. split; try done. cbn. by rewrite Ca.
      * destruct (wg_pos f I) as (k & Ek & Cn); [unfold counted; rewrite E; lia|]. eexists. split; [by left|]. unfold wg_done. rewrite Ek. by split.
    + destruct S as [c E|c E El|c E Hc|c E Hc|c E|c E|c E].
      * eexists. split; [by left|]. split; try done. cbn. by rewrite (pend_same _ _ _ _ E).
      * eexists. split; [by left|]. split; try done. cbn. by rewrite (pend_same _ _ _ _ E).
      * eexists. split; [by left|]. split; try done. cbn. by rewrite (pend_same _ _ _ _ E).
      * assert (Out : inside Notify f = false) by (apply (inside_other (Remover i) f I); [cbn; by rewrite E|done]). cbn in Out.
        eexists. split; [right; apply by_server; [done|]; eapply (r_absent _ _ (pend (take i (x_rem f))) c (pend (drop (S i) (x_rem f))))|].
        { cbn. by rewrite (pend_split _ _ _ E). }
        { unfold mutex_free. cbn. destruct (x_n f); cbn [rn] in En; try discriminate Out; by subst n. }
        { done. }
        split; try done. cbn. by rewrite (pend_insert _ _ _ _ E).
      * assert (Out : inside Notify f = false) by (apply (inside_other (Remover i) f I); [cbn; by rewrite E|done]). cbn in Out.
        eexists. split; [right; apply by_server; [done|]; eapply (r_remove _ _ (pend (take i (x_rem f))) c (pend (drop (S i) (x_rem f))))|].
        { cbn. by rewrite (pend_split _ _ _ E). }
        { unfold mutex_free. cbn. destruct (x_n f); cbn [rn] in En; try discriminate Out; by subst n. }
        { by apply (i_del _ I i c). }
        split; try done; cbn; [|by rewrite (pend_insert _ _ _ _ E)]. destruct (x_n f); cbn [rn] in *; try discriminate Out; done.
      * eexists. split; [by left|]. split; try done. cbn. by rewrite (pend_same _ _ _ _ E).
      * assert (P : 0 < counted f). { pose proof (sum_lookup _ _ _ E) as P. unfold counted. change (rcount (c, RDone)) with 1 in P. lia. }
        destruct (wg_pos f I P) as (k & Ek & Cn). eexists. split; [by left|]. unfold wg_done. rewrite Ek. split; try done. cbn. by rewrite (pend_same _ _ _ _ E).
  - destruct S as [E Ea|E|E|E]; rewrite E; cbn [rc].
    + eexists. split; [right; apply by_server; [done|]; by apply c_wait|]. by split.
    + eexists. split; [right; apply by_server; [done|]; by apply c_listener|]. by split.
    + eexists. split; [right; apply by_server; [done|]; by apply c_chan|]. by split.
    + destruct (wg_pos f I) as (k & Ek & Cn); [unfold counted; rewrite E; lia|]. eexists. split; [by left|]. unfold wg_done. rewrite Ek. by split.
  - destruct S as [l1 c l2 E]. eexists. split; [right; apply by_server; [done|]; by apply (x_hangup _ _ l1 c l2)|]. by split.
  - destruct S as [e Ecl Eb|e Ecl| |E El|E El].
    + eexists. split; [right; apply by_outside; [done|]; by apply (o_submit _ e)|]. by split.
    + eexists. split; [right; apply by_outside; [done|]; by apply (o_panic _ e)|]. by split.
    + eexists. split; [right; apply by_outside; [done|]; by apply o_cancel|]. by split.
    + rewrite E. eexists. split; [right; apply by_outside; [done|]; by apply o_accept|]. by split.
    + rewrite E. eexists. split; [right; apply by_outside; [done|]; by apply o_error|]. by split.
Qed.
Lemma refines f : fine_reachable f -> exists s, reachable marshal s /\ R f s.
Proof.
  intros H. unfold EventLock.fine_reachable in H. remember finit as a eqn:Ea.
  assert (G : forall a f, rtc fine_step a f -> fine_reachable a -> forall s, reachable marshal s -> R a s -> exists s, reachable marshal s /\ R f s).
  { clear. intros a f H. induction H as [a|a b c S _ IH]; intros Ra s Rs Rl; [by exists s|].
    destruct (sim a b s (inv_reachable marshal a Ra) Rl S) as (s' & St & R').
    apply (IH) with (s := s'); [eapply rtc_r; [exact Ra|exact S]| |exact R']. destruct St as [->|St]; [done|]. eapply rtc_r; [exact Rs|exact St]. }
  subst a. apply (G finit f H) with (s := init); [apply rtc_refl|apply rtc_refl|apply R_init].
Qed.

(** ** How long the mutex is held *)
Lemma hold_bound f g : fine_reachable f -> forall n f', holds marshal g n f f' -> fine_reachable f' /\ (x_lock f' = Some g -> n + left_to_do g f' <= left_to_do g f) /\ n <= left_to_do g f.
Proof.
  intros Rf n f' H. induction H as [f|n f f' f'' H IH L C S|n f f' f'' H IH L S N].
  - split; [done|]. split; lia.
  - destruct (IH Rf) as (R1 & B & B'). specialize (B L). split; [eapply rtc_r; [exact R1|]; by eapply by_goroutine|].
    assert (P : 0 < left_to_do g f').
    { destruct (holder_moves f' g (inv_reachable marshal f' R1) L) as (f1 & _ & Lt & _). lia. }
    split; [|lia]. intros L'.
    destruct (holder_nearer f' f'' g (inv_reachable marshal f' R1) L S) as [E|[E Lt]]; [congruence|lia].
  - destruct (IH Rf) as (R1 & B & B'). specialize (B L). split; [eapply rtc_r; [exact R1|exact S]|]. split; [|done].
    intros L'. destruct (others_leave f' f'' g (inv_reachable marshal f' R1) L S) as [(g' & Hg & ->)|[E1 E2]]; [done|]. lia.
Qed.
Lemma only_holder f f' g : fine_reachable f -> x_lock f = Some g -> fine_step f f' -> x_lock f' = Some g \/ (goes g f f' /\ x_lock f' = None).
Proof.
  intros Rf L S. pose proof (inv_reachable marshal f Rf) as I. destruct (others_leave f f' g I L S) as [(g' & Hg & ->)|[E _]]; [|by left].
  destruct (holder_nearer f f' g I L Hg) as [E|[E _]]; [by right|by left].
Qed.

(** ** No deadlock *)
Lemma free_moves f : inv f -> x_lock f = None -> (exists f', own marshal f f') \/ waiting f.
Proof.
  intros I L.
  assert (Hn : (exists f', goes Notify f f') \/ (x_n f = FNone) \/ x_n f = FEnd \/ (x_n f = FRecv /\ x_buf f = [] /\ x_closed f = false)).
  { assert (Out : inside Notify f = false). { destruct (inside Notify f) eqn:E; [|done]. apply (i_lock _ I) in E. congruence. }
    cbn [EventLock.goes]. cbn in Out. destruct (x_n f) as [| | | |d|d|line l| | |] eqn:En; try discriminate Out; auto.
    - left. eexists. by apply fn_add.
    - left. destruct (x_cancelled f) eqn:E; eexists; [by apply fn_end|by apply fn_continue].
    - destruct (x_buf f) as [|e r] eqn:Eb.
      + destruct (x_closed f) eqn:E; [left; eexists; by apply fn_nil|tauto].
      + left. destruct (marshal e) as [d|] eqn:Em; eexists; [by apply (fn_event _ f e r d)|by apply (fn_bad _ f e r)].
    - left. eexists. by apply (fn_lock _ f d).
    - left. eexists. by apply fn_done. }
  destruct Hn as [[f' S]|Hn]; [left; exists f'; left; by exists Notify|].
  assert (Hs : (exists f', goes Serve f f') \/ x_s f = GEnd \/ (x_s f = GAccept /\ x_lclosed f = false)).
  { cbn [EventLock.goes]. destruct (x_s f) as [| | | | |c|c| | | |] eqn:Es; auto.
    - left. eexists. by apply fg_notify.
    - left. eexists. by apply fg_add.
    - left. eexists. by apply fg_cleanup.
    - left. destruct (x_cancelled f) eqn:E; eexists; [by apply fg_end|by apply fg_continue].
    - destruct (x_lclosed f) eqn:E; [left; eexists; by apply fg_error|tauto].
    - left. eexists. by apply (fg_lock f c).
    - left. eexists. by apply (fg_store f c).
    - left. eexists. by apply fg_unlock.
    - left. eexists. by apply fg_cancel.
    - left. eexists. by apply fg_done. }
  destruct Hs as [[f' S]|Hs]; [left; exists f'; left; by exists Serve|].
  assert (Hc : (exists f', f_cleanup f f') \/ x_c f = KEnd \/ (x_c f = KWait /\ x_cancelled f = false)).
  { destruct (x_c f) eqn:Ec; auto.
    - exfalso. apply (i_c2 _ I) in Ec. destruct Hs as [Es|[Es _]]; rewrite Es in Ec; discriminate Ec.
    - destruct (x_cancelled f) eqn:E; [left; eexists; by apply fk_wait|tauto].
    - left. eexists. by apply fk_listener.
    - left. eexists. by apply fk_chan.
    - left. eexists. by apply fk_done. }
  destruct Hc as [[f' S]|Hc]; [left; exists f'; right; by left|].
  destruct (x_closers f) as [|c k] eqn:Ek; [|left; eexists; right; right; by apply (fx_hangup f [] c k)].
  assert (Hr : (exists i f', goes (Remover i) f f') \/ Forall (fun r => snd r = REnd) (x_rem f)).
  { destruct (decide (Forall (fun r => snd r = REnd) (x_rem f))) as [F|F]; [by right|]. left.
    apply not_Forall_Exists in F; [|apply _]. apply Exists_exists in F as ([c p] & Hin & Np). cbn in Np. apply elem_of_list_lookup in Hin as [i Hi]. exists i. cbn [EventLock.goes].
    destruct p.
    - eexists. by apply (fr_add i f c).
    - eexists. by apply (fr_lock i f c).
    - destruct (decide (c ∈ x_clients f)); eexists; [by apply (fr_present i f c)|by apply (fr_absent i f c)].
    - eexists. by apply (fr_delete i f c).
    - eexists. by apply (fr_unlock i f c).
    - eexists. by apply (fr_done i f c).
    - done. }
  destruct Hr as [(i & f' & S)|Hr]; [left; exists f'; left; by exists (Remover i)|].
  right. split; [|done]. destruct Hn as [En|Hn]; [|tauto]. exfalso. apply (i_n2 _ I) in En. destruct Hs as [Es|[Es _]]; congruence.
Qed.
Lemma no_deadlock f : fine_reachable f -> (exists f', own marshal f f') \/ waiting f.
Proof.
  intros Rf. pose proof (inv_reachable marshal f Rf) as I. destruct (x_lock f) as [g|] eqn:L; [|by apply free_moves].
  left. destruct (holder_moves f g I L) as (f' & S & _). exists f'. left. by exists g.
Qed.
Lemma waiting_cancelled f : fine_reachable f -> waiting f -> x_cancelled f = true -> returned f.
Proof.
  intros Rf (Hn & Hs & Hc & Hr & Hk) C. pose proof (inv_reachable marshal f Rf) as I. destruct Hc as [Ec|[Ec E]]; [|congruence].
  pose proof (i_clo _ I) as E1. pose proof (i_cls _ I) as E2. rewrite Ec in E1, E2.
  destruct Hn as [En|(En & Eb & E)]; [|congruence]. destruct Hs as [Es|[Es E]]; [|congruence]. done.
Qed.

(** ** After cancellation the server stops *)
Definition w_n (f : fine) : nat :=
  match x_n f with
  | FEnd => 0 | FDone => 1 | FTest => 2 | FUnlock => 3 | FSend _ l => 4 + 10 * (size (x_clients f) - length l)
  | FIter _ => 5 + 10 * size (x_clients f) | FLock _ => 6 + 10 * size (x_clients f) | FRecv => 7 + 10 * size (x_clients f) | FAdd => 3 | FNone => 4
  end.
Definition w_s (f : fine) : nat :=
  match x_s f with GEnd => 0 | GDone => 1 | GCancel => 2 | GTest => 3 | GUnlock => 4 | GStore _ => 16 | GLock _ => 17 | GAccept => 18 | GCleanup => 4 | GAdd => 5 | GNotify => 6 end.
Definition w_c (f : fine) : nat := match x_c f with KEnd => 0 | KDone => 1 | KChan => 2 | KListener => 3 | KWait => 4 | KNone => 5 end.
Definition w_r (r : nat * rpc) : nat := match snd r with RAdd => 6 | RLock => 5 | RLook => 4 | RDelete => 3 | RUnlock => 2 | RDone => 1 | REnd => 0 end.
Definition weight (f : fine) : nat := w_n f + w_s f + w_c f + list_sum (map w_r (x_rem f)) + length (x_closers f).
Lemma wr_insert l i (r r' : nat * rpc) : l !! i = Some r -> list_sum (map w_r (<[i := r']> l)) + w_r r = list_sum (map w_r l) + w_r r'.
Proof.
  revert i. induction l as [|x l IH]; intros [|i] H; try discriminate H.
  - injection H as ->. change (<[0 := r']> (r :: l)) with (r' :: l). cbn [map]. rewrite !sum_cons. lia.
  - change (<[S i := r']> (x :: l)) with (x :: <[i := r']> l). cbn [map]. rewrite !sum_cons. specialize (IH i H). lia.
Qed.
Lemma add_size (m : gset nat) c : size ({[c]} ∪ m) <= 1 + size m.
Proof. rewrite size_union_alt, size_singleton. pose proof (subseteq_size (m ∖ {[c]}) m). set_solver by lia. Qed.
Lemma del_size (m : gset nat) c : size (m ∖ {[c]}) <= size m.
Proof. apply subseteq_size. set_solver. Qed.
Lemma visited_next f line l c : inv f -> x_n f = FSend line l -> c ∈ x_clients f -> c ∉ l -> S (length l) <= size (x_clients f).
Proof.
  intros I En Hc Hl. pose proof (i_vis _ I line l En) as [Nd Vi].
  assert (Sz : size (list_to_set (c :: l) : gset nat) = length (c :: l)) by (apply size_list_to_set; by constructor).
  change (S (length l)) with (length (c :: l)). rewrite <- Sz. apply subseteq_size. intros c0 H0. apply elem_of_list_to_set, elem_of_cons in H0 as [->|H0]; [done|by apply Vi].
Qed.
Lemma own_decreases f f' : inv f -> x_cancelled f = true -> own marshal f f' -> weight f' < weight f /\ x_cancelled f' = true.
Proof.
  intros I C [[g S]|[S|S]].
  - destruct g as [| |i]; cbn [EventLock.goes] in S.
    + destruct S as [En|En Ea|En Ea|e r d En Eb Em|e r En Eb Em|En Eb Ec|d En El|d En|line l c En Hc Hl Hg|line l c n En Hc Hl Hn Hg|line l En Ha|En|En];
        unfold weight, w_n, w_s, w_c, wg_done; rewrite En; try (match goal with |- context[match x_wg f with _ => _ end] => destruct (x_wg f) end); fields; try congruence; cbn [length]; (split; [|done]); try lia.
      * pose proof (visited_next f line l c I En Hc Hl). lia.
      * pose proof (visited_next f line l c I En Hc Hl). rewrite map_app, list_sum_app, app_length. cbn [map length]. rewrite sum_cons. change (w_r (c, RAdd)) with 6. cbn [list_sum foldr]. lia.
    + destruct S as [Es|Es|Es|Es Ea|Es Ea|Es El|c Es El|c Es|Es|Es|Es];
        unfold weight, w_n, w_s, w_c, wg_done; rewrite Es; try (match goal with |- context[match x_wg f with _ => _ end] => destruct (x_wg f) end); fields; try congruence; (split; [|done]); try lia.
      * rewrite (i_n _ I Es). lia.
      * pose proof (i_c _ I) as K. rewrite Es in K. rewrite (K eq_refl). lia.
      * assert (Out : inside Notify f = false) by (apply (inside_other Serve f I); [cbn; by rewrite Es|done]). cbn in Out.
        pose proof (add_size (x_clients f) c). destruct (x_n f); try discriminate Out; lia.
    + destruct S as [c E|c E El|c E Hc|c E Hc|c E|c E|c E]; unfold weight, w_n, w_s, w_c, wg_done; try (match goal with |- context[match x_wg f with _ => _ end] => destruct (x_wg f) end); fields; (split; [|done]);
      match goal with |- context[<[i := ?r']> (x_rem f)] => pose proof (wr_insert (x_rem f) i _ r' E) as W; unfold w_r at 2 4 in W; cbn [snd] in W end; try lia.
      assert (Out : inside Notify f = false) by (apply (inside_other (Remover i) f I); [cbn; by rewrite E|done]). cbn in Out.
      pose proof (del_size (x_clients f) c). destruct (x_n f); try discriminate Out; lia.
  - destruct S as [Ec Ea|Ec|Ec|Ec]; unfold weight, w_n, w_s, w_c, wg_done; rewrite Ec; try (match goal with |- context[match x_wg f with _ => _ end] => destruct (x_wg f) end); fields; (split; [lia|done]).
  - destruct S as [l1 c l2 E]; unfold weight, w_n, w_s, w_c; fields; rewrite E, !app_length; cbn [length]. split; [lia|done].
Qed.
Lemma outside_keeps f f' : x_cancelled f = true -> f_outside f f' -> weight f' <= weight f /\ x_cancelled f' = true.
Proof.
  intros C S. destruct S as [e Ec Eb|e Ec| |Es El|Es El]; unfold weight, w_n, w_s, w_c; fields; try (split; [lia|done]); rewrite Es; (split; [lia|done]).
Qed.
Lemma own_step f f' : x_crashed f = false -> own marshal f f' -> fine_step f f'.
Proof. intros C [[g S]|[S|S]]; [by eapply by_goroutine|by apply by_cleanup|by apply by_closer]. Qed.
Lemma runs_bound f : fine_reachable f -> x_cancelled f = true -> forall n f', fine_runs marshal n f f' -> n + weight f' <= weight f /\ x_cancelled f' = true /\ fine_reachable f'.
Proof.
  intros Rf C n f' H. induction H as [f|n f f' f'' H IH Cr S|n f f' f'' H IH Cr S].
  - split; [lia|]. done.
  - destruct (IH Rf C) as (B & C' & R'). destruct (own_decreases f' f'' (inv_reachable marshal f' R') C' S) as [B1 C1]. split; [lia|]. split; [done|]. eapply rtc_r; [exact R'|]. by apply own_step.
  - destruct (IH Rf C) as (B & C' & R'). destruct (outside_keeps f' f'' C' S) as [B1 C1]. split; [lia|]. split; [done|]. eapply rtc_r; [exact R'|]. by apply by_others.
Qed.

(** ** The wait group *)
Lemma no_bad_done f f' : fine_reachable f -> fine_step f f' -> x_crashed f' = true -> f_outside f f' /\ x_closed f = true.
Proof.
  intros Rf S C. pose proof (inv_reachable marshal f Rf) as I. destruct S as [g f' Cr S|f' Cr S|f' Cr S|f' Cr S].
  - exfalso. destruct g as [| |i]; cbn [EventLock.goes] in S.
    + destruct S as [En|En Ea|En Ea|e r d En Eb Em|e r En Eb Em|En Eb Ec|d En El|d En|line l c En Hc Hl Hg|line l c n En Hc Hl Hn Hg|line l En Ha|En|En]; fields; try congruence.
      destruct (wg_pos f I) as (k & Ek & Cn); [unfold counted; rewrite En; lia|]. unfold wg_done in C. rewrite Ek in C. cbn in C. congruence.
    + destruct S as [Es|Es|Es|Es Ea|Es Ea|Es El|c Es El|c Es|Es|Es|Es]; fields; try congruence.
      destruct (wg_pos f I) as (k & Ek & Cn); [unfold counted; rewrite Es; lia|]. unfold wg_done in C. rewrite Ek in C. cbn in C. congruence.
    + destruct S as [c E|c E El|c E Hc|c E Hc|c E|c E|c E]; fields; try congruence.
      assert (P : 0 < counted f). { pose proof (sum_lookup _ _ _ E) as P. unfold counted. change (rcount (c, RDone)) with 1 in P. lia. }
      destruct (wg_pos f I P) as (k & Ek & Cn). unfold wg_done in C. rewrite Ek in C. cbn in C. congruence.
  - exfalso. destruct S as [Ec Ea|Ec|Ec|Ec]; fields; try congruence.
    destruct (wg_pos f I) as (k & Ek & Cn); [unfold counted; rewrite Ec; lia|]. unfold wg_done in C. rewrite Ek in C. cbn in C. congruence.
  - exfalso. destruct S; fields; congruence.
  - destruct S as [e Ec Eb|e Ec| |Es El|Es El]; fields; try congruence. split; [by apply fo_panic|done].
Qed.
Lemma wg_zero f : fine_reachable f -> x_wg f = 0 ->
  x_s f = GEnd /\ x_c f = KEnd /\ x_lclosed f = true /\ x_closed f = true /\ (x_n f = FAdd \/ x_n f = FEnd) /\ Forall (fun r => snd r = RAdd \/ snd r = REnd) (x_rem f).
Proof.
  intros Rf W. pose proof (inv_reachable marshal f Rf) as I. rewrite (i_wg _ I) in W. unfold counted in W.
  destruct (x_s f) eqn:Es; try lia. destruct (x_c f) eqn:Ec; try lia.
  { apply (i_c2 _ I) in Ec. rewrite Es in Ec. discriminate Ec. }
  rewrite (i_clo _ I), (i_cls _ I), Ec. do 4 (split; [done|]). split.
  - destruct (x_n f) eqn:En; try lia; auto. apply (i_n2 _ I) in En. congruence.
  - apply Forall_lookup. intros i [c p] Hi. pose proof (sum_lookup _ _ _ Hi) as P. cbn. destruct p; auto; change (rcount (c, _)) with 1 in P; exfalso; cbn in P; lia.
Qed.
Lemma wg_returned f : fine_reachable f -> returned f -> x_wg f = 0.
Proof.
  intros Rf (En & Es & Ec & F & _). rewrite (i_wg _ (inv_reachable marshal f Rf)). unfold counted. rewrite En, Es, Ec.
  enough (list_sum (map rcount (x_rem f)) = 0) by lia. induction F as [|[c p] l H F IH]; [done|]. cbn [map]. rewrite sum_cons, IH. cbn in H. by subst p.
Qed.

(** ** Every schedule of EventServer.v is one of the finer model *)
Definition calm (f : fine) : Prop :=
  match x_n f with FTest | FRecv | FLock _ | FSend _ _ | FEnd => True | _ => False end /\
  match x_s f with GTest | GAccept | GLock _ | GEnd => True | _ => False end /\
  match x_c f with KWait | KListener | KChan | KEnd => True | _ => False end /\
  Forall (fun r => snd r = RAdd \/ snd r = REnd) (x_rem f).
Lemma calm_free f : inv f -> calm f -> (forall line l, x_n f <> FSend line l) -> x_lock f = None.
Proof.
  intros I (Hn & Hs & Hc & Hr) N. destruct (x_lock f) as [g|] eqn:L; [|done]. exfalso. apply (i_lock _ I) in L. destruct g as [| |i]; cbn in L.
  - destruct (x_n f) as [| | | | | |line l| | |] eqn:E; try done. by apply (N line l).
  - by destruct (x_s f).
  - destruct (x_rem f !! i) as [[c p]|] eqn:E; [|done]. eapply Forall_lookup_1 in Hr; [|exact E]. cbn in Hr. destruct Hr as [->| ->]; discriminate L.
Qed.
Lemma pend_in l l1 c l2 : Forall (fun r => snd r = RAdd \/ snd r = REnd) l -> pend l = l1 ++ c :: l2 ->
  exists i, l !! i = Some (c, RAdd) /\ pend (take i l) = l1 /\ pend (drop (S i) l) = l2.
Proof.
  revert l1. induction l as [|[x p] l IH]; intros l1 F E; [by destruct l1|]. inversion F as [|? ? Hp F']; subst. cbn in Hp.
  destruct Hp as [->| ->].
  - change (pend ((x, RAdd) :: l)) with (x :: pend l) in E. destruct l1 as [|y l1].
    + injection E as -> E. exists 0. cbn. by rewrite drop_0.
    + injection E as -> E. destruct (IH l1 F' E) as (i & H1 & H2 & H3). exists (S i). split; [exact H1|]. split; [|exact H3]. change (y :: pend (take i l) = y :: l1). by rewrite H2.
  - change (pend ((x, REnd) :: l)) with (pend l) in E. destruct (IH l1 F' E) as (i & H1 & H2 & H3). exists (S i). split; [exact H1|]. by split.
Qed.
Lemma calm_insert l i c p : Forall (fun r : nat * rpc => snd r = RAdd \/ snd r = REnd) l -> p = RAdd \/ p = REnd -> Forall (fun r => snd r = RAdd \/ snd r = REnd) (<[i := (c, p)]> l).
Proof. intros F H. by apply Forall_insert. Qed.
Ltac one_n := eapply rtc_l; [apply (by_goroutine _ _ Notify); [eassumption|]|].
Ltac one_s := eapply rtc_l; [apply (by_goroutine _ _ Serve); [eassumption|]|].
Ltac one_c := eapply rtc_l; [apply by_cleanup; [eassumption|]|].
Ltac one_r i := eapply rtc_l; [apply (by_goroutine _ _ (Remover i)); [eassumption|]|].
Ltac one_o := eapply rtc_l; [apply by_others; [eassumption|]|].
Lemma rem_path f i c : x_crashed f = false -> x_lock f = None -> x_rem f !! i = Some (c, RAdd) ->
  exists f', rtc fine_step f f' /\ outer_fine f' = mkouter (x_cancelled f) (x_buf f) (x_closed f) (x_lclosed f) (x_clients f ∖ {[c]}) false (x_log f ++ if decide (c ∈ x_clients f) then [ORemove c] else [])
    /\ x_next f' = x_next f /\ x_closers f' = x_closers f /\ x_n f' = x_n f /\ x_s f' = x_s f /\ x_c f' = x_c f /\ x_rem f' = <[i := (c, REnd)]> (x_rem f).
Proof.
  intros Cr L E. pose proof (lookup_lt_Some _ _ _ E) as Lt.
  destruct (decide (c ∈ x_clients f)) as [Hc|Hc].
  - eexists. split.
    { one_r i; [by apply (fr_add i f c)|].
      one_r i; [apply (fr_lock i _ c); [by apply list_lookup_insert|exact L]|].
      one_r i; [apply (fr_present i _ c); [apply list_lookup_insert; cbn; by rewrite insert_length|exact Hc]|].
      one_r i; [apply (fr_delete i _ c); apply list_lookup_insert; cbn; by rewrite !insert_length|].
      one_r i; [apply (fr_unlock i _ c); apply list_lookup_insert; cbn; by rewrite !insert_length|].
      one_r i; [apply (fr_done i _ c); apply list_lookup_insert; cbn; by rewrite !insert_length|].
      apply rtc_refl. }
    cbn. rewrite !list_insert_insert. split; [|done]. unfold outer_fine. cbn. by rewrite Cr.
  - eexists. split.
    { one_r i; [by apply (fr_add i f c)|].
      one_r i; [apply (fr_lock i _ c); [by apply list_lookup_insert|exact L]|].
      one_r i; [apply (fr_absent i _ c); [apply list_lookup_insert; cbn; by rewrite insert_length|exact Hc]|].
      one_r i; [apply (fr_unlock i _ c); apply list_lookup_insert; cbn; by rewrite !insert_length|].
      one_r i; [apply (fr_done i _ c); apply list_lookup_insert; cbn; by rewrite !insert_length|].
      apply rtc_refl. }
    cbn. rewrite !list_insert_insert. split; [|done]. unfold outer_fine. cbn. rewrite app_nil_r, Cr. f_equal. set_solver.
Qed.

Ltac calm_is H := destruct H as (Hn & Hs & Hc & Hr).
Lemma back f s s' : inv f -> calm f -> R f s -> step marshal s s' -> exists f', rtc fine_step f f' /\ calm f' /\ R f' s'.
Proof.
  intros I Cm Rf S. pose proof (calm_free f I Cm) as Free. pose proof Cm as (Hn & Hs & Hc & Hr). destruct Rf as [Eo Ex Ek En Es Ec Er].
  destruct s as [can b clo lcl cli n sv cl rm ks nx cr lg].
  unfold outer_fine, outer_of in Eo. cbn [cancelled buf closed lclosed clients np sp cp removers closers next crashed log] in *. injection Eo as <- <- <- <- <- <- <-. subst nx ks sv cl rm.
  destruct S as [s' Cr S|s' Cr S]; cbn [crashed] in Cr.
  - destruct S as [En'|En' Ea|e r d En' Eb Em|e r En' Eb Em|En' Eb Ecl|d En'|line l1 c l2 En' Hg|line l1 c l2 m En' Hm Hg|line En'|Es' Ea|Es' Ea|Es' El|c Es' Mf|Ec' Ea|Ec'|Ec'|l1 c l2 Er Mf Hin|l1 c l2 Er Mf Hin|l1 c l2 Ek];
      cbn [cancelled buf closed lclosed clients np sp cp removers closers next crashed log] in *; try subst n.
    + destruct (x_n f) as [| | | | | |line l| | |] eqn:E; cbn [rn] in En; try done; [|by destruct En as (? & ? & _)].
      eexists. split; [one_n; [by apply fn_continue|apply rtc_refl]|]. split; [|by split]. by repeat split.
    + destruct (x_n f) as [| | | | | |line l| | |] eqn:E; cbn [rn] in En; try done; [|by destruct En as (? & ? & _)].
      destruct (wg_pos f I) as (k & Ew & Cn); [unfold counted; rewrite E; lia|].
      eexists. split; [one_n; [by apply fn_end|]; one_n; [by apply fn_done|apply rtc_refl]|]. unfold wg_done. cbn [x_wg p_n]. rewrite Ew. split; [|by split]. by repeat split.
    + destruct (x_n f) as [| | | | | |line l| | |] eqn:E; cbn [rn] in En; try done; [|by destruct En as (? & ? & _)].
      eexists. split; [one_n; [by apply (fn_event _ _ e r d)|apply rtc_refl]|]. split; [|by split]. by repeat split.
    + destruct (x_n f) as [| | | | | |line l| | |] eqn:E; cbn [rn] in En; try done; [|by destruct En as (? & ? & _)].
      eexists. split; [one_n; [by apply (fn_bad _ _ e r)|apply rtc_refl]|]. split; [|by split]. by repeat split.
    + destruct (x_n f) as [| | | | | |line l| | |] eqn:E; cbn [rn] in En; try done; [|by destruct En as (? & ? & _)].
      eexists. split; [one_n; [by apply fn_nil|apply rtc_refl]|]. split; [|by split]. by repeat split.
    + destruct (x_n f) as [| | | |d'| |line l| | |] eqn:E; cbn [rn] in En; try done; [|by destruct En as (? & ? & _)]. injection En as <-.
      eexists. split; [one_n; [apply (fn_lock _ _ d); [done|by apply Free]|]; one_n; [by apply (fn_iter _ _ d)|apply rtc_refl]|]. split; [by repeat split|]. split; try done.
      cbn. eexists. split; [done|]. split; [apply NoDup_elements|]. intros c. rewrite elem_of_elements. split; [intros H; split; [done|]; apply not_elem_of_nil|by intros [H _]].
    + destruct (x_n f) as [| | | |d'| |line' l| | |] eqn:E; cbn [rn] in En; try done. destruct En as (todo & [= <- <-] & Nd & Hin).
      assert (Hc0 : c ∈ x_clients f /\ c ∉ l) by (apply Hin, elem_of_app; right; by left).
      eexists. split; [one_n; [apply (fn_write _ _ line l c); [done|apply Hc0|apply Hc0|done]|apply rtc_refl]|]. split; [by repeat split|]. split; try done. cbn. eexists. split; [done|].
      apply NoDup_app in Nd as (N1 & Nx & N2). apply NoDup_cons in N2 as [Nc N2]. split.
      { apply NoDup_app. split; [done|]. split; [|done]. intros x Hx Hx2. apply (Nx x Hx). by apply elem_of_cons; right. }
      intros c0. specialize (Hin c0). rewrite elem_of_app, elem_of_cons in Hin. rewrite elem_of_app, elem_of_cons. split.
      { intros H. destruct Hin as [Hin _]. destruct Hin as [H1 H2]; [tauto|]. split; [done|]. intros [->|H3]; [|done]. destruct H as [H|H]; [|done]. apply (Nx c H). apply elem_of_cons. by left. }
      intros [H1 H2]. destruct Hin as [_ Hin]. destruct Hin as [H|[->|H]]; [split; [done|tauto]|tauto|tauto|tauto].
    + destruct (x_n f) as [| | | |d'| |line' l| | |] eqn:E; cbn [rn] in En; try done. destruct En as (todo & [= <- <-] & Nd & Hin).
      assert (Hc0 : c ∈ x_clients f /\ c ∉ l) by (apply Hin, elem_of_app; right; by left).
      eexists. split; [one_n; [apply (fn_fail _ _ line l c m); [done|apply Hc0|apply Hc0|done|done]|apply rtc_refl]|].
      split; [repeat split; try done; cbn; apply List.Forall_app; split; [done|]; constructor; [by left|constructor]|]. split; try done; [|cbn; by rewrite pend_app]. cbn. eexists. split; [done|].
      apply NoDup_app in Nd as (N1 & Nx & N2). apply NoDup_cons in N2 as [Nc N2]. split.
      { apply NoDup_app. split; [done|]. split; [|done]. intros x Hx Hx2. apply (Nx x Hx). by apply elem_of_cons; right. }
      intros c0. specialize (Hin c0). rewrite elem_of_app, elem_of_cons in Hin. rewrite elem_of_app, elem_of_cons. split.
      { intros H. destruct Hin as [Hin _]. destruct Hin as [H1 H2]; [tauto|]. split; [done|]. intros [->|H3]; [|done]. destruct H as [H|H]; [|done]. apply (Nx c H). apply elem_of_cons. by left. }
      intros [H1 H2]. destruct Hin as [_ Hin]. destruct Hin as [H|[->|H]]; [split; [done|tauto]|tauto|tauto|tauto].
    + destruct (x_n f) as [| | | |d'| |line' l| | |] eqn:E; cbn [rn] in En; try done. destruct En as (todo & [= <- <-] & Nd & Hin).
      eexists. split; [one_n; [apply (fn_over _ _ line l); [done|]|]|].
      { intros c H. destruct (decide (c ∈ l)) as [Hl|Hl]; [done|]. exfalso. apply (not_elem_of_nil c). by apply Hin. }
      { one_n; [by apply fn_unlock|apply rtc_refl]. }
      split; [|by split]. by repeat split.
    + destruct (x_s f) eqn:E; cbn [rs] in Es'; try done. eexists. split; [one_s; [by apply fg_continue|apply rtc_refl]|]. split; [|by split]. by repeat split.
    + destruct (x_s f) eqn:E; cbn [rs] in Es'; try done. 
      destruct (wg_pos f I) as (k & Ew & Cn); [unfold counted; rewrite E; lia|].
      eexists. split; [one_s; [by apply fg_end|]; one_s; [by apply fg_cancel|]; one_s; [by apply fg_done|apply rtc_refl]|]. unfold wg_done. cbn [x_wg p_s p_cancelled]. rewrite Ew. split; [by repeat split|]. split; try done. cbn. by rewrite Ea.
    + destruct (x_s f) eqn:E; cbn [rs] in Es'; try done. eexists. split; [one_s; [by apply fg_error|apply rtc_refl]|]. split; [|by split]. by repeat split.
    + destruct (x_s f) as [| | | | |c'|c'| | | |] eqn:E; cbn [rs] in Es'; try done. injection Es' as ->.
      assert (Ns : forall line l, x_n f <> FSend line l). { intros line l E'. rewrite E' in En. cbn in En. destruct En as (todo & -> & _). done. }
      eexists. split; [one_s; [apply (fg_lock _ c); [done|by apply Free]|]; one_s; [by apply (fg_store _ c)|]; one_s; [by apply fg_unlock|apply rtc_refl]|].
      split; [by repeat split|]. split; try done. cbn. destruct (x_n f) as [| | | |d'| |line l| | |] eqn:E'; try done. by destruct (Ns line l).
    + destruct (x_c f) eqn:E; cbn [rc] in Ec'; try done. eexists. split; [one_c; [by apply fk_wait|apply rtc_refl]|]. split; [|by split]. by repeat split.
    + destruct (x_c f) eqn:E; cbn [rc] in Ec'; try done. eexists. split; [one_c; [by apply fk_listener|apply rtc_refl]|]. split; [|by split]. by repeat split.
    + destruct (x_c f) eqn:E; cbn [rc] in Ec'; try done. 
      destruct (wg_pos f I) as (k & Ew & Cn); [unfold counted; rewrite E; lia|].
      eexists. split; [one_c; [by apply fk_chan|]; one_c; [by apply fk_done|apply rtc_refl]|]. unfold wg_done. cbn [x_wg p_c p_closed p_log]. rewrite Ew. split; [|by split]. by repeat split.
    + destruct (pend_in _ _ _ _ Hr Er) as (i & Hi & H1 & H2).
      assert (Ns : forall line l, x_n f <> FSend line l). { intros line l E'. rewrite E' in En. cbn in En. destruct En as (todo & -> & _). done. }
      destruct (rem_path f i c Cr (Free Ns) Hi) as (f' & P & Eo & E1 & E2 & E3 & E4 & E5 & E6). rewrite decide_True in Eo by done.
      exists f'. split; [exact P|]. unfold calm. rewrite E3, E4, E5, E6. split; [repeat split; try done; by apply calm_insert; [|right]|].
      split; cbn; try congruence.
      * rewrite Eo. unfold outer_of. cbn. by rewrite Cr.
      * rewrite E3. destruct (x_n f) as [| | | |d'| |line l| | |] eqn:E'; try done. by destruct (Ns line l).
      * rewrite E6, (pend_insert _ _ _ _ Hi), H1, H2. done.
    + destruct (pend_in _ _ _ _ Hr Er) as (i & Hi & H1 & H2).
      assert (Ns : forall line l, x_n f <> FSend line l). { intros line l E'. rewrite E' in En. cbn in En. destruct En as (todo & -> & _). done. }
      destruct (rem_path f i c Cr (Free Ns) Hi) as (f' & P & Eo & E1 & E2 & E3 & E4 & E5 & E6). rewrite decide_False in Eo by done.
      assert (Ed : x_clients f ∖ {[c]} = x_clients f) by set_solver. rewrite Ed, app_nil_r in Eo.
      exists f'. split; [exact P|]. unfold calm. rewrite E3, E4, E5, E6. split; [repeat split; try done; by apply calm_insert; [|right]|].
      split; cbn; try congruence.
      * rewrite Eo. unfold outer_of. cbn. by rewrite Cr.
      * rewrite E3. destruct (x_n f) as [| | | |d'| |line l| | |] eqn:E'; try done. by destruct (Ns line l).
      * rewrite E6, (pend_insert _ _ _ _ Hi), H1, H2. done.
    + eexists. split; [eapply rtc_l; [apply by_closer; [eassumption|]; by apply (fx_hangup _ l1 c l2)|apply rtc_refl]|]. split; [|by split]. by repeat split.
  - destruct S as [e Ecl Eb|e Ecl| |Es' El|Es' El]; cbn [cancelled buf closed lclosed clients np sp cp removers closers next crashed log] in *.
    + eexists. split; [one_o; [by apply (fo_submit _ e)|apply rtc_refl]|]. split; [|by split]. by repeat split.
    + eexists. split; [one_o; [by apply (fo_panic _ e)|apply rtc_refl]|]. split; [|by split]. by repeat split.
    + eexists. split; [one_o; [by apply fo_cancel|apply rtc_refl]|]. split; [|by split]. by repeat split.
    + destruct (x_s f) eqn:E; cbn [rs] in Es'; try done. eexists. split; [one_o; [by apply fo_accept|apply rtc_refl]|]. split; [|by split]. by repeat split.
    + destruct (x_s f) eqn:E; cbn [rs] in Es'; try done. eexists. split; [one_o; [by apply fo_error|apply rtc_refl]|]. split; [|by split]. by repeat split.
Qed.
Definition started : fine := mkfine false [] false false ∅ None FTest GTest KWait [] [] 0 3 false [].
Lemma started_reachable : fine_reachable started.
Proof.
  unfold EventLock.fine_reachable, finit.
  eapply rtc_l; [apply (by_goroutine _ _ Serve); [reflexivity|]; by apply fg_notify|].
  eapply rtc_l; [apply (by_goroutine _ _ Notify); [reflexivity|]; by apply fn_add|].
  eapply rtc_l; [apply (by_goroutine _ _ Serve); [reflexivity|]; by apply fg_add|].
  eapply rtc_l; [apply (by_goroutine _ _ Serve); [reflexivity|]; by apply fg_cleanup|].
  apply rtc_refl.
Qed.
Lemma complete s : reachable marshal s -> exists f, fine_reachable f /\ calm f /\ R f s.
Proof.
  intros H. unfold reachable in H.
  assert (G : forall a s, rtc (step marshal) a s -> (exists f, fine_reachable f /\ calm f /\ R f a) -> exists f, fine_reachable f /\ calm f /\ R f s).
  { clear. intros a s H. induction H as [a|a b c S _ IH]; [done|]. intros (f & Rf & Cf & Rl). apply IH.
    destruct (back f a b (inv_reachable marshal f Rf) Cf Rl S) as (f' & P & C' & R'). exists f'. split; [|done]. red. by transitivity f. }
  apply (G init s H). exists started. split; [apply started_reachable|]. split; [|by split]. repeat split; try done. constructor.
Qed.

(** ** After the wait group has come to zero *)
Definition late (f : fine) : Prop :=
  x_s f = GEnd /\ x_c f = KEnd /\ x_closed f = true /\ x_cancelled f = true /\ match x_n f with FAdd | FTest | FDone | FEnd => True | _ => False end.
Lemma late_step f f' : late f -> fine_step f f' -> late f' /\ exists t, x_log f' = x_log f ++ t /\ Forall tidies t.
Proof.
  intros (Es & Ec & Ecl & Ca & Hn) S.
  assert (Nil : forall l : list obs, exists t, l = l ++ t /\ Forall tidies t) by (intros l; exists []; by rewrite app_nil_r).
  destruct S as [g f' Cr S|f' Cr S|f' Cr S|f' Cr S].
  - destruct g as [| |i]; cbn [EventLock.goes] in S.
    + destruct S as [En|En Ea|En Ea|e r d En Eb Em|e r En Eb Em|En Eb Ecc|d En El|d En|line l c En Hc Hl Hg|line l c n En Hc Hl Hnn Hg|line l En Ha|En|En]; rewrite En in Hn; try done; try congruence;
        unfold late, wg_done; try (match goal with |- context[match x_wg f with _ => _ end] => destruct (x_wg f) end); fields; (split; [done|apply Nil]).
    + destruct S as [Es'|Es'|Es'|Es' Ea|Es' Ea|Es' El|c Es' El|c Es'|Es'|Es'|Es']; congruence.
    + destruct S as [c E|c E El|c E Hc|c E Hc|c E|c E|c E]; unfold late, wg_done; try (match goal with |- context[match x_wg f with _ => _ end] => destruct (x_wg f) end); fields; (split; [done|]); try apply Nil.
      exists [ORemove c]. split; [done|]. by repeat constructor.
  - destruct S as [Ec' Ea|Ec'|Ec'|Ec']; congruence.
  - destruct S as [l1 c l2 E]. unfold late. fields. split; [done|]. exists [OHangup c]. split; [done|]. by repeat constructor.
  - destruct S as [e Ec' Eb|e Ec'| |Es' El|Es' El]; try congruence; unfold late; fields; (split; [done|apply Nil]).
Qed.
Lemma late_runs f f' : late f -> rtc fine_step f f' -> late f' /\ exists t, x_log f' = x_log f ++ t /\ Forall tidies t.
Proof.
  intros L H. induction H as [f|f f1 f' S _ IH].
  - split; [done|]. exists []. by rewrite app_nil_r.
  - destruct (late_step f f1 L S) as [L1 (t1 & E1 & T1)]. destruct (IH L1) as [L' (t2 & E2 & T2)]. split; [done|]. exists (t1 ++ t2). rewrite E2, E1, app_assoc. split; [done|]. by apply List.Forall_app.
Qed.
Lemma zero_late f : fine_reachable f -> x_wg f = 0 -> late f.
Proof.
  intros Rf W. destruct (wg_zero f Rf W) as (Es & Ec & _ & Ecl & Hn & _). split; [done|]. split; [done|]. split; [done|]. split.
  - apply (i_ctx _ (inv_reachable marshal f Rf)). tauto.
  - destruct Hn as [->| ->]; done.
Qed.
End Lock.
