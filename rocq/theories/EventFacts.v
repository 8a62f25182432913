(** Invariants of the event server. *)
From stdpp Require Import gmap.
From Coq Require Import NArith ZArith Lia.
From Verif Require Import GoBase EventServer SpecEvents.

Lemma submitted_snoc l o : submitted (l ++ [o]) = submitted l ++ match o with OSubmit e => [e] | _ => [] end.
Proof. unfold submitted. rewrite omap_app. destruct o; reflexivity. Qed.
Lemma broadcasts_snoc l o : broadcasts (l ++ [o]) = broadcasts l ++ match o with OBroadcast b => [b] | _ => [] end.
Proof. unfold broadcasts. rewrite omap_app. destruct o; reflexivity. Qed.
Lemma attempts_snoc c l o :
  attempts c (l ++ [o]) = attempts c l ++ match o with OWrite c' b _ => if decide (c' = c) then [b] else [] | _ => [] end.
Proof. unfold attempts. rewrite omap_app. destruct o; cbn; try destruct (decide _); reflexivity. Qed.
Lemma attempts_app c l l' : attempts c (l ++ l') = attempts c l ++ attempts c l'.
Proof. apply omap_app. Qed.
Lemma broadcasts_app l l' : broadcasts (l ++ l') = broadcasts l ++ broadcasts l'.
Proof. apply omap_app. Qed.

Lemma elem_snoc (x o : obs) l : x ∈ l ++ [o] <-> x ∈ l \/ x = o.
Proof. rewrite elem_of_app, elem_of_list_singleton. reflexivity. Qed.

Lemma snoc_split (l : list obs) o l1 x l2 :
  l ++ [o] = l1 ++ x :: l2 -> (l2 = [] /\ o = x /\ l = l1) \/ exists l2', l2 = l2' ++ [o] /\ l = l1 ++ x :: l2'.
Proof.
  intros H. destruct l2 as [|y l2 _] using rev_ind.
  - left. apply app_inj_tail in H as (-> & ->). repeat split.
  - right. exists l2. rewrite app_comm_cons, app_assoc in H. apply app_inj_tail in H as (-> & ->). repeat split.
Qed.

Section Facts.
Context (marshal : flow_event -> option bytes).
Notation step := (step marshal).
Notation server := (server marshal).
Notation reachable := (reachable marshal).

Lemma invariant (P : state -> Prop) :
  P init -> (forall s s', reachable s -> P s -> step s s' -> P s') -> forall s, reachable s -> P s.
Proof.
  intros H0 H1. apply (rtc_ind_r (R := step) P init H0). intros s s' Hs Hst Hp. exact (H1 s s' Hs Hp Hst).
Qed.

(** ** What the clients are concerned with *)
Record view := mkview { v_log : list obs; v_clients : gset nat; v_next : nat; v_adding : option nat; v_cur : option (bytes * list nat) }.
Definition adding_of (p : spc) : option nat := match p with SAdd c => Some c | _ => None end.
Definition cur_of (p : npc) : option (bytes * list nat) := match p with NSend line todo => Some (line, todo) | _ => None end.
Definition view_of (s : state) : view := mkview (log s) (clients s) (next s) (adding_of (sp s)) (cur_of (np s)).

Definition idle (o : obs) : Prop := match o with OSubmit _ | OHangup _ | OCloseListener | OCloseChan => True | _ => False end.
Inductive vstep (removing : nat -> Prop) : view -> view -> Prop :=
| v_same v : vstep removing v v
| v_obs l m n a c o : idle o -> vstep removing (mkview l m n a c) (mkview (l ++ [o]) m n a c)
| v_accept l m n c : vstep removing (mkview l m n None c) (mkview l m (S n) (Some n) c)
| v_add l m n k : vstep removing (mkview l m n (Some k) None) (mkview (l ++ [OAdd k]) ({[k]} ∪ m) n None None)
| v_lock l m n a line : vstep removing (mkview l m n a None) (mkview (l ++ [OBroadcast line]) m n a (Some (line, elements m)))
| v_write l m n a line l1 k l2 f :
    vstep removing (mkview l m n a (Some (line, l1 ++ k :: l2))) (mkview (l ++ [OWrite k line f]) m n a (Some (line, l1 ++ l2)))
| v_unlock l m n a line : vstep removing (mkview l m n a (Some (line, []))) (mkview l m n a None)
| v_remove l m n a k : removing k -> k ∈ m -> vstep removing (mkview l m n a None) (mkview (l ++ [ORemove k]) (m ∖ {[k]}) n a None).

Lemma mutex_cur s : mutex_free s -> cur_of (np s) = None.
Proof. unfold mutex_free. destruct (np s); intros H; try reflexivity. contradiction. Qed.

Lemma step_view s s' : step s s' -> vstep (fun k => k ∈ removers s) (view_of s) (view_of s').
Proof.
  intros [s1 _ H|s1 _ H]; destruct H; unfold view_of; cbn -[elements];
    repeat match goal with
    | H : np s = _ |- _ => rewrite H; clear H
    | H : sp s = _ |- _ => rewrite H; clear H
    | H : mutex_free s |- _ => rewrite (mutex_cur s H); clear H
    end; cbn -[elements].
  all: try (apply v_same).
  all: try (apply v_obs; exact I).
  all: try (apply v_accept).
  all: try (apply v_add).
  all: try (apply v_lock).
  all: try (apply v_write).
  all: try (apply v_unlock).
  apply v_remove; [|assumption]. rewrite H. apply elem_of_app; right; left.
Qed.

(** ** Clients *)
Definition inv_clients (v : view) : Prop :=
  (forall c, OAdd c ∈ v_log v -> c < v_next v /\ v_adding v <> Some c)
  /\ (forall c, v_adding v = Some c -> c < v_next v)
  /\ (forall c, c ∈ v_clients v -> OAdd c ∈ v_log v)
  /\ (forall c, OAdd c ∉ v_log v -> attempts c (v_log v) = [])
  /\ (forall c, ORemove c ∈ v_log v -> OAdd c ∈ v_log v)
  /\ match v_cur v with Some (_, todo) => NoDup todo /\ forall c, c ∈ todo -> c ∈ v_clients v | None => True end.

Lemma idle_attempts o c l : idle o -> attempts c (l ++ [o]) = attempts c l.
Proof. intros H. rewrite attempts_snoc. destruct o; try contradiction; apply app_nil_r. Qed.

Lemma not_snoc (x o : obs) l : x ∉ l ++ [o] -> x ∉ l.
Proof. intros H X. apply H, elem_snoc. left. exact X. Qed.

Lemma clients_step rm v v' : inv_clients v -> vstep rm v v' -> inv_clients v'.
Proof.
  intros (A1 & A2 & A3 & A4 & A5 & A6) H. destruct H as [v|l m n a c o Ho|l m n c|l m n k|l m n a line|l m n a line l1 k l2 f|l m n a line|l m n a k Hk Hm];
    unfold inv_clients; cbn [v_log v_clients v_next v_adding v_cur] in *.
  - repeat split; try assumption; intros; apply A1; assumption.
  - split.
    { intros k Hk. apply elem_snoc in Hk as [Hk| <-]; [apply A1; exact Hk|contradiction]. }
    split; [exact A2|]. split; [intros k Hk; apply elem_snoc; left; apply A3; exact Hk|].
    split; [intros k Hk; rewrite (idle_attempts _ _ _ Ho); apply A4; exact (not_snoc _ _ _ Hk)|].
    split; [|exact A6]. intros k Hk. apply elem_snoc. left. apply elem_snoc in Hk as [Hk| <-]; [apply A5; exact Hk|contradiction].
  - split; [intros k Hk; destruct (A1 k Hk); split; [lia | intros X; injection X as ->; lia]|].
    split; [intros k Hk; injection Hk as <-; lia|]. repeat (split; [assumption|]). exact A6.
  - split.
    { intros j Hj. split; [|discriminate]. apply elem_snoc in Hj as [Hj|Hj]; [apply A1; exact Hj|]. injection Hj as ->. apply A2. reflexivity. }
    split; [discriminate|].
    split.
    { intros j Hj. apply elem_snoc. apply elem_of_union in Hj as [Hj|Hj]; [right; apply elem_of_singleton in Hj as ->; reflexivity|].
      left. apply A3. exact Hj. }
    split; [intros j Hj; rewrite attempts_snoc, app_nil_r; apply A4; exact (not_snoc _ _ _ Hj)|].
    split; [|exact I]. intros j Hj. apply elem_snoc. left. apply elem_snoc in Hj as [Hj|Hj]; [apply A5; exact Hj | discriminate Hj].
  - split; [intros j Hj; apply elem_snoc in Hj as [Hj|Hj]; [apply A1; exact Hj | discriminate Hj]|].
    split; [exact A2|]. split; [intros j Hj; apply elem_snoc; left; apply A3; exact Hj|].
    split; [intros j Hj; rewrite attempts_snoc, app_nil_r; apply A4; exact (not_snoc _ _ _ Hj)|].
    split; [intros j Hj; apply elem_snoc; left; apply elem_snoc in Hj as [Hj|Hj]; [apply A5; exact Hj | discriminate Hj]|].
    split; [apply NoDup_elements|]. intros j Hj. apply elem_of_elements in Hj. exact Hj.
  - destruct A6 as (N1 & N2).
    split; [intros j Hj; apply elem_snoc in Hj as [Hj|Hj]; [apply A1; exact Hj | discriminate Hj]|].
    split; [exact A2|]. split; [intros j Hj; apply elem_snoc; left; apply A3; exact Hj|].
    split.
    { intros j Hj. rewrite attempts_snoc. rewrite A4 by exact (not_snoc _ _ _ Hj).
      destruct (decide (k = j)) as [-> |]; [|reflexivity]. exfalso. apply (not_snoc _ _ _ Hj). apply A3, N2.
      apply elem_of_app; right; left. }
    split; [intros j Hj; apply elem_snoc; left; apply elem_snoc in Hj as [Hj|Hj]; [apply A5; exact Hj | discriminate Hj]|].
    split; [|intros j Hj; apply N2; apply elem_of_app in Hj as [Hj|Hj]; apply elem_of_app; [left | right; right]; exact Hj].
    apply NoDup_app in N1 as (B1 & B2 & B3). apply NoDup_cons in B3 as (B4 & B5).
    apply NoDup_app. split; [exact B1|]. split; [|exact B5]. intros j Hj X. exact (B2 j Hj (elem_of_list_further _ _ _ X)).
  - repeat (split; [assumption|]). exact I.
  - split; [intros j Hj; apply elem_snoc in Hj as [Hj|Hj]; [apply A1; exact Hj | discriminate Hj]|].
    split; [exact A2|]. split; [intros j Hj; apply elem_snoc; left; apply A3; apply elem_of_difference in Hj as (Hj & _); exact Hj|].
    split; [intros j Hj; rewrite attempts_snoc, app_nil_r; apply A4; exact (not_snoc _ _ _ Hj)|].
    split; [|exact I]. intros j Hj. apply elem_snoc. left.
    apply elem_snoc in Hj as [Hj|Hj]; [apply A5; exact Hj|]. injection Hj as ->. apply A3. exact Hm.
Qed.

Lemma clients_ok s : reachable s -> inv_clients (view_of s).
Proof.
  revert s. apply (invariant (fun s => inv_clients (view_of s))).
  - split; [intros k H; inversion H|]. split; [intros k H; discriminate H|]. split; [intros k H; inversion H|].
    split; [intros k H; reflexivity|]. split; [intros k H; inversion H | exact I].
  - intros s s' _ H Hst. exact (clients_step _ _ _ H (step_view _ _ Hst)).
Qed.

(** ** Each client gets every line from its registration to its removal *)
Definition pending (v : view) (c : nat) : list bytes :=
  match v_cur v with Some (line, todo) => if decide (c ∈ todo) then [line] else [] | None => [] end.

Definition served (v : view) (c : nat) : Prop :=
  forall l1 l2, v_log v = l1 ++ OAdd c :: l2 ->
    OAdd c ∉ l1 /\ OAdd c ∉ l2 /\ attempts c l1 = []
    /\ (c ∈ v_clients v -> ORemove c ∉ l2 /\ attempts c l2 ++ pending v c = broadcasts l2)
    /\ (c ∉ v_clients v -> exists a b, l2 = a ++ ORemove c :: b /\ ORemove c ∉ a /\ ORemove c ∉ b /\ attempts c a = broadcasts a /\ attempts c b = []).

(** Adding to the log something that does not concern c. *)
Lemma served_other l m n a cu m' n' a' cu' o c :
  (forall k, o <> OAdd k \/ k <> c) -> o <> ORemove c -> (forall b f, o <> OWrite c b f) ->
  (c ∈ m <-> c ∈ m') ->
  (c ∈ m -> pending (mkview l m n a cu) c ++ broadcasts [o] = pending (mkview (l ++ [o]) m' n' a' cu') c) ->
  served (mkview l m n a cu) c -> served (mkview (l ++ [o]) m' n' a' cu') c.
Proof.
  intros O1 O2 O3 Hm Hp Hs l1 l2 E. cbn [v_log] in E.
  apply snoc_split in E as [(-> & -> & ->)|(l2' & -> & ->)].
  { destruct (O1 c) as [X|X]; contradiction. }
  destruct (Hs l1 l2' eq_refl) as (S1 & S2 & S3 & S4 & S5). cbn [v_clients] in *.
  assert (Ea : forall x, attempts c (x ++ [o]) = attempts c x).
  { intros x. rewrite attempts_snoc. destruct o; try apply app_nil_r. destruct (decide (c0 = c)) as [-> |]; [|apply app_nil_r].
    exfalso. eapply O3. reflexivity. }
  split; [exact S1|]. split; [intros X; apply elem_snoc in X as [X| <-]; [exact (S2 X)|]; destruct (O1 c) as [Y|Y]; contradiction|].
  split; [exact S3|]. split.
  - intros Hc. apply Hm in Hc. destruct (S4 Hc) as (B1 & B2).
    split; [intros X; apply elem_snoc in X as [X|X]; [exact (B1 X)|]; symmetry in X; contradiction|].
    rewrite Ea, broadcasts_snoc, <- B2. rewrite <- (app_assoc (attempts c l2')). f_equal. etransitivity; [symmetry; exact (Hp Hc)|]. f_equal. destruct o; reflexivity.
  - intros Hc. destruct S5 as (x & y & -> & B1 & B2 & B3 & B4); [intros X; apply Hc, Hm, X|].
    exists x, (y ++ [o]). rewrite <- app_assoc. split; [reflexivity|]. split; [exact B1|].
    split; [intros X; apply elem_snoc in X as [X|X]; [exact (B2 X)|]; symmetry in X; contradiction|].
    split; [exact B3|]. rewrite Ea. exact B4.
Qed.

Lemma served_step rm v v' c : inv_clients v -> served v c -> vstep rm v v' -> served v' c.
Proof.
  intros (A1 & A2 & A3 & A4 & A5 & A6) Hs H.
  destruct H as [v|l m n a cu o Ho|l m n cu|l m n k|l m n a line|l m n a line l1 k l2 f|l m n a line|l m n a k Hk Hm]; cbn [v_log v_clients v_next v_adding v_cur] in *.
  - exact Hs.
  - revert Hs. apply served_other; try (intros; destruct o; try contradiction; try discriminate; left; discriminate).
    + reflexivity.
    + intros _. rewrite <- app_nil_r. f_equal. destruct o; try contradiction; reflexivity.
  - intros l1 l2 E. exact (Hs l1 l2 E).
  - destruct (decide (k = c)) as [-> |Hkc].
    + intros l1 l2 E. cbn [v_log] in E. apply snoc_split in E as [(-> & _ & ->)|(l2' & -> & ->)].
      * assert (Nc : OAdd c ∉ l1) by (intros X; apply (proj2 (A1 c X)); reflexivity).
        split; [exact Nc|]. split; [intros X; inversion X|]. split; [apply A4; exact Nc|].
        split; [intros _; split; [intros X; inversion X | reflexivity]|].
        intros X. exfalso. apply X. cbn. apply elem_of_union_l, elem_of_singleton. reflexivity.
      * exfalso. apply (proj2 (A1 c (elem_of_list_lookup_2 _ (length l1) _ (list_lookup_middle _ _ _ _ eq_refl)))). reflexivity.
    + revert Hs. apply served_other; try discriminate.
      * intros j. destruct (decide (j = c)) as [-> |]; [left; intros X; injection X as X; contradiction | right; assumption].
      * rewrite elem_of_union, elem_of_singleton. split; [intros X; right; exact X | intros [X|X]; [congruence | exact X]].
      * intros _. reflexivity.
  - revert Hs. apply served_other; try discriminate; try (intros; left; discriminate).
    + reflexivity.
    + intros Hc. unfold pending. cbn -[elements]. destruct (decide (c ∈ elements m)) as [|Hn]; [reflexivity|].
      exfalso. apply Hn, elem_of_elements. exact Hc.
  - destruct A6 as (N1 & N2). destruct (decide (k = c)) as [-> |Hkc].
    + intros x1 x2 E. cbn [v_log] in E. apply snoc_split in E as [(-> & X & ->)|(l2' & -> & ->)]; [discriminate X|].
      destruct (Hs x1 l2' eq_refl) as (S1 & S2 & S3 & S4 & S5). cbn [v_clients] in *.
      assert (Hc : c ∈ m) by (apply N2, elem_of_app; right; left).
      split; [exact S1|]. split; [intros X; apply elem_snoc in X as [X|X]; [exact (S2 X) | discriminate X]|].
      split; [exact S3|]. split; [|intros X; contradiction].
      intros _. destruct (S4 Hc) as (B1 & B2). split; [intros X; apply elem_snoc in X as [X|X]; [exact (B1 X) | discriminate X]|].
      assert (E1 : pending (mkview (x1 ++ OAdd c :: l2') m n a (Some (line, l1 ++ c :: l2))) c = [line]).
      { unfold pending. cbn [v_cur]. apply decide_True. apply elem_of_app; right; left. }
      rewrite E1 in B2. rewrite attempts_snoc, broadcasts_snoc, app_nil_r, <- B2. rewrite decide_True by reflexivity.
      rewrite <- app_nil_r. f_equal. unfold pending. cbn [v_cur]. apply decide_False.
      apply NoDup_app in N1 as (_ & C2 & C3). apply NoDup_cons in C3 as (C4 & _).
      intros X. apply elem_of_app in X as [X|X]; [|contradiction]. apply (C2 c X). left.
    + revert Hs. apply served_other; try discriminate; try (intros; left; discriminate).
      * intros b f' X. injection X as X _ _. contradiction.
      * reflexivity.
      * intros _. unfold pending. cbn. rewrite app_nil_r.
        destruct (decide (c ∈ l1 ++ k :: l2)) as [X|X], (decide (c ∈ l1 ++ l2)) as [Y|Y]; try reflexivity; exfalso.
        -- apply elem_of_app in X as [X|X]; [apply Y, elem_of_app; left; exact X|].
           apply elem_of_cons in X as [X|X]; [congruence|]. apply Y, elem_of_app; right; exact X.
        -- apply X. apply elem_of_app in Y as [Y|Y]; apply elem_of_app; [left; exact Y | right; right; exact Y].
  - intros l1 l2 E. destruct (Hs l1 l2 E) as (S1 & S2 & S3 & S4 & S5). 
    split; [exact S1|]. split; [exact S2|]. split; [exact S3|]. split; [exact S4 | exact S5].
  - destruct (decide (k = c)) as [-> |Hkc].
    + intros l1 l2 E. cbn [v_log] in E. apply snoc_split in E as [(-> & X & ->)|(l2' & -> & ->)]; [discriminate X|].
      destruct (Hs l1 l2' eq_refl) as (S1 & S2 & S3 & S4 & S5). cbn [v_clients] in *.
      destruct (S4 Hm) as (B1 & B2).
      split; [exact S1|]. split; [intros X; apply elem_snoc in X as [X|X]; [exact (S2 X) | discriminate X]|].
      split; [exact S3|]. split; [intros X; apply elem_of_difference in X as (_ & X); exfalso; apply X, elem_of_singleton; reflexivity|].
      intros _. exists l2', []. split; [reflexivity|]. split; [exact B1|]. split; [intros X; inversion X|].
      split; [|reflexivity]. rewrite <- B2. unfold pending. cbn. rewrite app_nil_r. reflexivity.
    + revert Hs. apply served_other; try discriminate; try (intros; left; discriminate).
      * intros X. injection X as X. contradiction.
      * rewrite elem_of_difference, elem_of_singleton. split; [intros X; split; [exact X | congruence] | intros (X & _); exact X].
      * intros _. reflexivity.
Qed.

Lemma served_ok s c : reachable s -> served (view_of s) c.
Proof.
  revert s. apply (invariant (fun s => served (view_of s) c)).
  - intros l1 l2 E. cbn in E. destruct l1; discriminate E.
  - intros s s' Hr H Hst. exact (served_step _ _ _ _ (clients_ok s Hr) H (step_view _ _ Hst)).
Qed.

(** ** Only clients with a failed write are removed *)
Definition inv_failed (s : state) : Prop :=
  (forall c, c ∈ removers s -> has_failed c (log s)) /\ (forall c, c ∈ closers s -> has_failed c (log s))
  /\ (forall c, ORemove c ∈ log s -> has_failed c (log s)) /\ (forall c, OHangup c ∈ log s -> has_failed c (log s)).
Lemma failed_snoc c l o : has_failed c l -> has_failed c (l ++ [o]).
Proof. intros (line & n & H). exists line, n. apply elem_snoc. left. exact H. Qed.
Lemma drop_middle (x c : nat) l1 l2 : x ∈ l1 ++ l2 -> x ∈ l1 ++ c :: l2.
Proof. intros H. apply elem_of_app in H as [H|H]; apply elem_of_app; [left; exact H | right; right; exact H]. Qed.

Lemma failed_ok s : reachable s -> inv_failed s.
Proof.
  revert s. apply invariant.
  - repeat split; intros c H; inversion H.
  - intros s s' _ (A1 & A2 & A3 & A4) Hst.
    assert (K3 : forall o, (forall c, o <> ORemove c) -> forall c, ORemove c ∈ log s ++ [o] -> has_failed c (log s ++ [o])).
    { intros o Ho c Hc. apply elem_snoc in Hc as [Hc|Hc]; [apply failed_snoc, A3, Hc|]. exfalso. exact (Ho c (eq_sym Hc)). }
    assert (K4 : forall o, (forall c, o <> OHangup c) -> forall c, OHangup c ∈ log s ++ [o] -> has_failed c (log s ++ [o])).
    { intros o Ho c Hc. apply elem_snoc in Hc as [Hc|Hc]; [apply failed_snoc, A4, Hc|]. exfalso. exact (Ho c (eq_sym Hc)). }
    destruct Hst as [s1 _ H|s1 _ H]; destruct H; unfold inv_failed; cbn -[elements].
    all: try (split; [exact A1|]; split; [exact A2|]; split; [exact A3 | exact A4]).
    all: try (split; [intros k Hk; apply failed_snoc, A1, Hk|]; split; [intros k Hk; apply failed_snoc, A2, Hk|];
              split; [apply K3; discriminate | apply K4; discriminate]).
    + assert (F : has_failed c (log s ++ [OWrite c line (Some n)])) by (exists line, n; apply elem_snoc; right; reflexivity).
      split; [intros k Hk; apply elem_of_app in Hk as [Hk|Hk]; [apply failed_snoc, A1, Hk | apply elem_of_list_singleton in Hk as ->; exact F]|].
      split; [intros k Hk; apply elem_of_app in Hk as [Hk|Hk]; [apply failed_snoc, A2, Hk | apply elem_of_list_singleton in Hk as ->; exact F]|].
      split; [apply K3; discriminate | apply K4; discriminate].
    + assert (F : has_failed c (log s)) by (apply A1; rewrite H; apply elem_of_app; right; left).
      split; [intros k Hk; apply failed_snoc, A1; rewrite H; apply drop_middle, Hk|].
      split; [intros k Hk; apply failed_snoc, A2, Hk|].
      split; [intros k Hk; apply elem_snoc in Hk as [Hk|Hk]; [apply failed_snoc, A3, Hk | injection Hk as ->; apply failed_snoc, F] | apply K4; discriminate].
    + split; [intros k Hk; apply A1; rewrite H; apply drop_middle, Hk|]. split; [exact A2|]. split; [exact A3 | exact A4].
    + assert (F : has_failed c (log s)) by (apply A2; rewrite H; apply elem_of_app; right; left).
      split; [intros k Hk; apply failed_snoc, A1, Hk|].
      split; [intros k Hk; apply failed_snoc, A2; rewrite H; apply drop_middle, Hk|].
      split; [apply K3; discriminate|]. intros k Hk; apply elem_snoc in Hk as [Hk|Hk]; [apply failed_snoc, A4, Hk | injection Hk as ->; apply failed_snoc, F].
Qed.

(** ** Events are broadcast in the order they were submitted *)
Definition line_of (e : flow_event) : option bytes := match marshal e with Some d => Some (d ++ [x0a]) | None => None end.
Definition in_hand (p : npc) : list bytes := match p with NLock d => [d ++ [x0a]] | _ => [] end.
Definition inv_order (s : state) : Prop :=
  omap line_of (submitted (log s)) = broadcasts (log s) ++ in_hand (np s) ++ omap line_of (buf s).

Lemma order_ok s : reachable s -> inv_order s.
Proof.
  revert s. apply invariant; [reflexivity|].
  intros s s' _ A Hst. unfold inv_order in *.
  destruct Hst as [s1 _ H|s1 _ H]; destruct H; cbn [log buf np add_log set_np set_buf set_tasks set_clients set_next set_sp set_cp set_closed set_lclosed set_cancelled set_crashed];
    rewrite ?submitted_snoc, ?broadcasts_snoc, ?omap_app, ?app_nil_r;
    repeat match goal with H : np s = _ |- _ => rewrite H in A end; repeat match goal with H : buf s = _ |- _ => rewrite H in A end;
    cbn [in_hand app] in *; rewrite ?app_nil_r; try exact A.
  - rewrite A. change (omap line_of (e :: r)) with (match line_of e with Some x => x :: omap line_of r | None => omap line_of r end).
    unfold line_of at 1. rewrite H1. reflexivity.
  - rewrite A. change (omap line_of (e :: r)) with (match line_of e with Some x => x :: omap line_of r | None => omap line_of r end).
    unfold line_of at 1. rewrite H1. reflexivity.
  - rewrite A. rewrite H0. reflexivity.
  - rewrite A. rewrite <- app_assoc. reflexivity.
  - rewrite A, <- !app_assoc. reflexivity.
Qed.

(** ** Closing *)
Definition inv_close (s : state) : Prop :=
  (crashed s = true -> closed s = true)
  /\ match cp s with
     | CWait => closed s = false /\ lclosed s = false /\ times is_close_listener (log s) = 0 /\ times is_close_chan (log s) = 0
     | CListener => cancelled s = true /\ closed s = false /\ lclosed s = false /\ times is_close_listener (log s) = 0 /\ times is_close_chan (log s) = 0
     | CChan => cancelled s = true /\ closed s = false /\ lclosed s = true /\ times is_close_listener (log s) = 1 /\ times is_close_chan (log s) = 0
     | CEnd => cancelled s = true /\ closed s = true /\ lclosed s = true /\ times is_close_listener (log s) = 1 /\ times is_close_chan (log s) = 1
     end.

Lemma times_snoc P l o : times P (l ++ [o]) = times P l + (if P o then 1 else 0).
Proof.
  unfold times. rewrite List.filter_app, app_length. cbn. destruct (P o); reflexivity.
Qed.

Lemma close_ok s : reachable s -> inv_close s.
Proof.
  revert s. apply invariant; [split; [discriminate | repeat split]|].
  intros s s' _ (A0 & A) Hst. unfold inv_close in *.
  destruct Hst as [s1 Hc H|s1 Hc H]; destruct H;
    cbn [log cp cancelled closed lclosed crashed add_log set_np set_buf set_tasks set_clients set_next set_sp set_cp set_closed set_lclosed set_cancelled set_crashed];
    rewrite ?times_snoc; cbn [is_close_listener is_close_chan]; rewrite ?Nat.add_0_r; try (split; [exact A0 | exact A]).
  - rewrite H in A. destruct A as (B1 & B2 & B3 & B4). split; [exact A0|]. repeat split; assumption.
  - rewrite H in A. destruct A as (B1 & B2 & B3 & B4 & B5). rewrite B4, B5. split; [exact A0|]. repeat split; assumption.
  - rewrite H in A. destruct A as (B1 & B2 & B3 & B4 & B5). rewrite B4, B5. split; [reflexivity|]. repeat split; assumption.
  - split; [intros _; exact H | exact A].
  - split; [exact A0|]. destruct (cp s); [exact A| | |]; destruct A as (B1 & B2); split; try reflexivity; exact B2.
Qed.

Lemma chan_seen l : OCloseChan ∈ l <-> times is_close_chan l <> 0.
Proof.
  unfold times. induction l as [|o l IH]; [split; [intros H; inversion H | intros H; contradiction]|].
  rewrite elem_of_cons, IH. destruct o; cbn; split; intros H; try (destruct H as [H|H]; [discriminate H | exact H]); try (right; exact H); try lia.
  left. reflexivity.
Qed.

(** ** After cancellation the server stops *)
Definition m_np (s : state) : nat :=
  match np s with
  | NEnd => 0 | NTest => 1 | NSend _ todo => 2 + 5 * length todo
  | NLock _ => 3 + 5 * size (clients s) | NRecv => 4 + 5 * size (clients s) end.
Definition m_sp (s : state) : nat := match sp s with SEnd => 0 | STest => 1 | SAdd _ => 7 | SAccept => 8 end.
Definition m_cp (s : state) : nat := match cp s with CEnd => 0 | CChan => 1 | CListener => 2 | CWait => 3 end.
Definition measure (s : state) : nat := m_np s + m_sp s + m_cp s + length (removers s) + length (closers s).

Lemma length_elements (m : gset nat) : length (elements m) = size m.
Proof. reflexivity. Qed.

Ltac fields := unfold measure, m_np, m_sp, m_cp;
  cbn [log cp np sp clients removers closers cancelled closed lclosed crashed add_log set_np set_buf set_tasks set_clients set_next set_sp set_cp set_closed set_lclosed set_cancelled set_crashed].

Lemma server_decreases s s' : cancelled s = true -> server s s' -> measure s' < measure s /\ cancelled s' = true.
Proof.
  intros Hc H; destruct H; split; try exact Hc; fields;
  repeat match goal with
  | H : np s = _ |- _ => rewrite H in *; clear H
  | H : sp s = _ |- _ => rewrite H in *; clear H
  | H : cp s = _ |- _ => rewrite H in *; clear H
  | H : removers s = _ |- _ => rewrite H in *; clear H
  | H : closers s = _ |- _ => rewrite H in *; clear H
  end; try congruence; rewrite ?app_length; cbn [length]; rewrite ?length_elements; try lia.
  - (* add *) assert (size ({[c]} ∪ clients s) <= 1 + size (clients s)).
    { rewrite size_union_alt, size_singleton. pose proof (subseteq_size (clients s ∖ {[c]}) (clients s)). set_solver by lia. }
    destruct (np s); lia.
  - assert (size (clients s ∖ {[c]}) <= size (clients s)) by (apply subseteq_size; set_solver).
    destruct (np s); lia.
Qed.

Lemma outside_keeps s s' : cancelled s = true -> outside s s' -> measure s' <= measure s /\ cancelled s' = true.
Proof.
  intros Hc H; destruct H; split; try exact Hc; try reflexivity; fields; try lia.
  - rewrite H. lia.
  - rewrite H. lia.
Qed.

Lemma server_goes_on s : reachable s -> cancelled s = true -> ~ finished s -> exists s', server s s'.
Proof.
  intros Hr Hc Hf. destruct (close_ok s Hr) as (_ & A).
  destruct (cp s) eqn:Ec.
  { eexists. apply c_wait; assumption. }
  { eexists. apply c_listener; assumption. }
  { eexists. apply c_chan; assumption. }
  destruct A as (_ & A1 & A2 & _).
  destruct (np s) as [| |d|line todo|] eqn:En.
  { eexists. apply n_end; assumption. }
  { destruct (buf s) as [|e r] eqn:Eb; [eexists; apply n_nil; assumption|].
    destruct (marshal e) eqn:Em; eexists; [eapply n_event | eapply n_bad]; eassumption. }
  { eexists. apply (n_lock marshal s d); assumption. }
  { destruct todo as [|c todo]; [eexists; eapply n_unlock; eassumption|].
    eexists. apply (n_fail marshal s line [] c todo 0); [exact En | lia | reflexivity]. }
  assert (Mf : mutex_free s) by (unfold mutex_free; rewrite En; exact I).
  destruct (sp s) as [| |c|] eqn:Es.
  { eexists. apply s_end; assumption. }
  { eexists. apply s_error; assumption. }
  { eexists. eapply s_add; eassumption. }
  destruct (removers s) as [|c r] eqn:Er.
  - destruct (closers s) as [|c r] eqn:Ek; [exfalso; apply Hf; repeat split; assumption|].
    eexists. apply (x_hangup marshal s [] c r). exact Ek.
  - destruct (decide (c ∈ clients s)) as [Hi|Hi]; eexists; [apply (r_remove marshal s [] c r) | apply (r_absent marshal s [] c r)]; assumption.
Qed.

End Facts.

(** ** What arrives *)
Lemma write_split c o l :
  (exists b f, o = OWrite c b f) \/ (attempts c (o :: l) = attempts c l /\ received c (o :: l) = received c l).
Proof.
  destruct o; try (right; split; reflexivity).
  destruct (decide (c0 = c)) as [-> |Hn]; [left; eexists _, _; reflexivity|].
  right. unfold attempts, received. cbn. rewrite !decide_False by exact Hn. split; reflexivity.
Qed.
Lemma attempts_write c b f l : attempts c (OWrite c b f :: l) = b :: attempts c l.
Proof. unfold attempts. cbn. rewrite decide_True by reflexivity. reflexivity. Qed.
Lemma received_write c b f l : received c (OWrite c b f :: l) = (match f with None => b | Some n => firstn n b end) ++ received c l.
Proof. unfold received. cbn. rewrite decide_True by reflexivity. reflexivity. Qed.

Lemma received_all c l : ~ has_failed c l -> received c l = concat (attempts c l).
Proof.
  induction l as [|o l IH]; intros H; [reflexivity|].
  assert (H' : ~ has_failed c l) by (intros (b & n & X); apply H; exists b, n; right; exact X).
  destruct (write_split c o l) as [(b & f & ->)|(-> & ->)]; [|exact (IH H')].
  rewrite attempts_write, received_write, (IH H'). destruct f as [n|]; [|reflexivity].
  exfalso. apply H. exists b, n. left.
Qed.

Lemma received_steady c l : steady c l ->
  exists k part, received c l = concat (firstn k (attempts c l)) ++ part
    /\ (part = [] \/ exists line, attempts c l !! k = Some line /\ part `prefix_of` line).
Proof.
  induction l as [|o l IH]; intros H.
  - exists 0, []. split; [reflexivity | left; reflexivity].
  - assert (H' : steady c l) by (intros l1 b n l2 ->; exact (H (o :: l1) b n l2 eq_refl)).
    destruct (write_split c o l) as [(b & f & ->)|(-> & ->)]; [|exact (IH H')].
    rewrite attempts_write, received_write. destruct f as [n|].
    + rewrite (H [] b n l eq_refl). exists 0, (firstn n b). split; [apply app_nil_r|].
      right. exists b. split; [reflexivity|]. exists (skipn n b). symmetry. apply firstn_skipn.
    + destruct (IH H') as (k & part & -> & Hp). exists (S k), part. cbn [firstn concat]. rewrite <- app_assoc. split; [reflexivity|]. exact Hp.
Qed.
