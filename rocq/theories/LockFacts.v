(** The critical sections of the event server as single steps. *)
From stdpp Require Import gmap.
From Coq Require Import NArith ZArith Lia.
From Verif Require Import GoBase EventName EventServer EventLock SpecLock.

Lemma sum_cons n l : list_sum (n :: l) = n + list_sum l. Proof. reflexivity. Qed.
Section Lock.
Variable marshal : flow_event -> option bytes.
Notation goes := (goes marshal).
Notation fine_step := (fine_step marshal).
Notation fine_reachable := (fine_reachable marshal).

(** ** Invariants *)
Definition inside (g : who) (f : fine) : bool :=
  match g with
  | Notify => match x_n f with FIter _ | FSend _ _ | FUnlock => true | _ => false end
  | Serve => match x_s f with GStore _ | GUnlock => true | _ => false end
  | Remover i => match x_rem f !! i with Some (_, RLook) | Some (_, RDelete) | Some (_, RUnlock) => true | _ => false end
  end.
Definition rcount (r : nat * rpc) : nat := match snd r with RAdd | REnd => 0 | _ => 1 end.
Definition counted (f : fine) : nat :=
  (match x_s f with GEnd => 0 | _ => 1 end) +
  (match x_s f with GCleanup => 1 | _ => 0 end) + (match x_c f with KNone | KEnd => 0 | _ => 1 end) +
  (match x_n f with FNone | FAdd | FEnd => 0 | _ => 1 end) + list_sum (map rcount (x_rem f)).
Definition starting (s : fspc) : bool := match s with GNotify | GAdd | GCleanup => true | _ => false end.
Record inv (f : fine) : Prop := mkinv {
  i_lock : forall g, inside g f = true <-> x_lock f = Some g;
  i_del : forall i c, x_rem f !! i = Some (c, RDelete) -> c ∈ x_clients f;
  i_wg : x_wg f = counted f;
  i_n : x_s f = GNotify -> x_n f = FNone;
  i_n2 : x_n f = FNone -> x_s f = GNotify;
  i_c : starting (x_s f) = true -> x_c f = KNone;
  i_c2 : x_c f = KNone -> starting (x_s f) = true;
  i_ctx : (x_s f = GDone \/ x_s f = GEnd \/ x_s f = GCancel) -> x_cancelled f = true;
  i_clo : x_lclosed f = match x_c f with KChan | KDone | KEnd => true | _ => false end;
  i_cls : x_closed f = match x_c f with KDone | KEnd => true | _ => false end;
  i_kan : x_c f <> KNone -> x_c f <> KWait -> x_cancelled f = true;
  i_vis : forall line l, x_n f = FSend line l -> NoDup l /\ forall c, c ∈ l -> c ∈ x_clients f }.
Lemma sum_insert l i (r r' : nat * rpc) : l !! i = Some r -> list_sum (map rcount (<[i := r']> l)) + rcount r = list_sum (map rcount l) + rcount r'.
Proof.
  revert i. induction l as [|x l IH]; intros [|i] H; try discriminate H.
  - injection H as ->. change (<[0 := r']> (r :: l)) with (r' :: l). cbn [map]. rewrite !sum_cons. lia.
  - change (<[S i := r']> (x :: l)) with (x :: <[i := r']> l). cbn [map]. rewrite !sum_cons. specialize (IH i H). lia.
Qed.
Lemma sum_lookup l i (r : nat * rpc) : l !! i = Some r -> rcount r <= list_sum (map rcount l).
Proof. revert i. induction l as [|x l IH]; intros [|i] H; try discriminate H; cbn [map]; rewrite sum_cons; [injection H as ->; lia|]. specialize (IH i H). lia. Qed.
Lemma inv_init : inv finit.
Proof.
  split; try done.
  - intros [| |i]; cbn; split; done.
  - intros [E|[E|E]]; discriminate E.
Qed.
(** The lock, when somebody moves without touching it. *)
Lemma lock_same f f' : (forall g, inside g f = true <-> x_lock f = Some g) -> (forall g, inside g f' = inside g f) -> x_lock f' = x_lock f ->
  forall g, inside g f' = true <-> x_lock f' = Some g.
Proof. intros H E1 E2 g. rewrite E1, E2. apply H. Qed.
Lemma lock_take f f' g0 : (forall g, inside g f = true <-> x_lock f = Some g) -> x_lock f = None -> (forall g, g <> g0 -> inside g f' = inside g f) -> inside g0 f' = true ->
  x_lock f' = Some g0 -> forall g, inside g f' = true <-> x_lock f' = Some g.
Proof.
  intros H L E1 E2 E3 g. rewrite E3. destruct (decide (g = g0)) as [->|N]; [done|]. rewrite E1 by done. rewrite H, L. split; [done|]. intros [= ->]. done.
Qed.
Lemma lock_drop f f' g0 : (forall g, inside g f = true <-> x_lock f = Some g) -> inside g0 f = true -> (forall g, g <> g0 -> inside g f' = inside g f) -> inside g0 f' = false ->
  x_lock f' = None -> forall g, inside g f' = true <-> x_lock f' = Some g.
Proof.
  intros H I E1 E2 E3 g. rewrite E3. apply H in I. destruct (decide (g = g0)) as [->|N]; [rewrite E2; done|]. rewrite E1 by done. rewrite H, I. split; [|done]. intros [= ->]. done.
Qed.
Lemma inside_rem f f' g : x_n f' = x_n f -> x_s f' = x_s f -> x_rem f' = x_rem f -> inside g f' = inside g f.
Proof. intros E1 E2 E3. destruct g; cbn; by rewrite ?E1, ?E2, ?E3. Qed.
Lemma sum_app a b : list_sum (map rcount (a ++ b)) = list_sum (map rcount a) + list_sum (map rcount b).
Proof. by rewrite map_app, list_sum_app. Qed.
Ltac fields := cbn [x_cancelled x_buf x_closed x_lclosed x_clients x_lock x_n x_s x_c x_rem x_closers x_next x_wg x_crashed x_log
  p_n p_s p_c p_tasks p_buf p_clients p_lock p_next p_closed p_lclosed p_cancelled p_crashed p_log wg_add p_rem] in *.
Ltac easy_field := first [done | congruence | (intros; fields; first [done | congruence | tauto | eauto; fail | intuition congruence])].
Ltac easy_field2 := fields; intros; first
  [ match goal with N2 : x_n ?f = FNone -> x_s ?f = GNotify, E : x_n ?f = FNone |- _ => apply N2 in E; congruence end
  | match goal with C2 : x_c ?f = KNone -> starting (x_s ?f) = true, E : x_c ?f = KNone, Es : x_s ?f = _ |- _ => apply C2 in E; rewrite Es in E; discriminate E end
  | match goal with H : _ \/ _ \/ _ |- _ => destruct H as [H|[H|H]]; discriminate H end ].
(** Everything but the lock and the counter, for steps that do not delete. *)
Ltac lsame := match goal with H : forall g, inside g ?f = true <-> x_lock ?f = Some g |- _ =>
  apply (lock_same f); [exact H| |reflexivity]; intros [| |j]; unfold inside; fields; try reflexivity end.
Lemma wg_pos f : inv f -> 0 < counted f -> exists n, x_wg f = S n /\ counted f = S n.
Proof. intros I H. rewrite (i_wg _ I). destruct (counted f) as [|n]; [lia|]. by exists n. Qed.
Lemma inv_outside f f' : inv f -> f_outside f f' -> inv f'.
Proof.
  intros I S. pose proof I as [L D W N1 N2 C1 C2 X CL CC K V]. destruct S as [e Ec Eb|e Ec| |Es El|Es El].
  - split; try easy_field; try easy_field2; lsame.
  - split; try easy_field; try easy_field2; lsame.
  - split; try easy_field; try easy_field2; lsame.
  - split; try easy_field; try easy_field2.
    all: try solve [lsame; by rewrite Es].
    all: try solve [unfold counted in *; fields; rewrite W, Es; lia].
  - split; try easy_field; try easy_field2.
    all: try solve [lsame; by rewrite Es].
    all: try solve [unfold counted in *; fields; rewrite W, Es; lia].
Qed.
Lemma inv_cleanup f f' : inv f -> f_cleanup f f' -> inv f'.
Proof.
  intros I S. pose proof I as [L D W N1 N2 C1 C2 X CL CC K V].
  assert (Nk : x_c f <> KNone -> starting (x_s f) = false) by (intros E; destruct (starting (x_s f)); [by destruct E; apply C1|done]).
  destruct S as [Ec Ea|Ec|Ec|Ec].
  - split; try easy_field; try easy_field2.
    all: try solve [lsame].
    all: try solve [unfold counted in *; fields; rewrite W, Ec; lia].
    all: try solve [fields; intros E; rewrite Nk in E by congruence; done].
    all: try solve [fields; rewrite CL, Ec; done].
    all: try solve [fields; rewrite CC, Ec; done].
  - split; try easy_field; try easy_field2.
    all: try solve [lsame].
    all: try solve [unfold counted in *; fields; rewrite W, Ec; lia].
    all: try solve [fields; intros E; rewrite Nk in E by congruence; done].
    all: try solve [fields; rewrite CC, Ec; done].
    all: try solve [fields; intros _ _; apply K; congruence].
  - split; try easy_field; try easy_field2.
    all: try solve [lsame].
    all: try solve [unfold counted in *; fields; rewrite W, Ec; lia].
    all: try solve [fields; intros E; rewrite Nk in E by congruence; done].
    all: try solve [fields; rewrite CL, Ec; done].
    all: try solve [fields; intros _ _; apply K; congruence].
  - destruct (wg_pos f I) as (n & En & Cn); [unfold counted; rewrite Ec; lia|]. unfold wg_done. rewrite En. split; try easy_field; try easy_field2.
    all: try solve [lsame].
    all: try solve [unfold counted in *; fields; rewrite Ec in Cn; lia].
    all: try solve [fields; intros E; rewrite Nk in E by congruence; done].
    all: try solve [fields; rewrite CL, Ec; done].
    all: try solve [fields; rewrite CC, Ec; done].
    all: try solve [fields; intros _ _; apply K; congruence].
Qed.
Lemma inv_closer f f' : inv f -> f_closer f f' -> inv f'.
Proof. intros I S. pose proof I as [L D W N1 N2 C1 C2 X CL CC K V]. destruct S as [l1 c l2 E]. split; try easy_field; try easy_field2; lsame. Qed.
Lemma inside_other g f : inv f -> inside g f = true -> forall g', g' <> g -> inside g' f = false.
Proof. intros I H g' N. destruct (inside g' f) eqn:E; [|done]. apply (i_lock _ I) in H. apply (i_lock _ I) in E. congruence. Qed.
Lemma inv_serve f f' : inv f -> f_serve f f' -> inv f'.
Proof.
  intros I S. pose proof I as [L D W N1 N2 C1 C2 X CL CC K V].
  destruct S as [Es|Es|Es|Es Ea|Es Ea|Es El|c Es El|c Es|Es|Es|Es].
  - split; try easy_field; try easy_field2.
    all: try solve [lsame; [by rewrite (N1 Es)|by rewrite Es]].
    all: try solve [unfold counted in *; fields; rewrite W, Es, (N1 Es); lia].
    all: try solve [fields; intros _; apply C1; by rewrite Es].
  - split; try easy_field; try easy_field2.
    all: try solve [lsame; by rewrite Es].
    all: try solve [unfold counted in *; fields; rewrite W, Es; lia].
    all: try solve [fields; intros _; apply C1; by rewrite Es].
  - assert (Ec : x_c f = KNone) by (apply C1; by rewrite Es). split; try easy_field; try easy_field2.
    all: try solve [lsame; by rewrite Es].
    all: try solve [unfold counted in *; fields; rewrite W, Es, Ec; lia].
    all: try solve [fields; rewrite CL, Ec; done].
    all: try solve [fields; rewrite CC, Ec; done].
  - split; try easy_field; try easy_field2.
    all: try solve [lsame; by rewrite Es].
    all: try solve [unfold counted in *; fields; rewrite W, Es; lia].
  - split; try easy_field; try easy_field2.
    all: try solve [lsame; by rewrite Es].
    all: try solve [unfold counted in *; fields; rewrite W, Es; lia].
  - split; try easy_field; try easy_field2.
    all: try solve [lsame; by rewrite Es].
    all: try solve [unfold counted in *; fields; rewrite W, Es; lia].
  - split; try easy_field; try easy_field2.
    all: try solve [apply (lock_take f _ Serve); [exact L|exact El| |reflexivity|reflexivity]; intros [| |j] N; unfold inside; fields; try reflexivity; done].
    all: try solve [unfold counted in *; fields; rewrite W, Es; lia].
  - assert (In : inside Serve f = true) by (cbn; by rewrite Es). pose proof (inside_other Serve f I In) as Ot. split; try easy_field; try easy_field2.
    all: try solve [lsame; by rewrite Es].
    all: try solve [fields; intros i c0 E; apply elem_of_union_r; by eapply D].
    all: try solve [unfold counted in *; fields; rewrite W, Es; lia].
    all: try solve [fields; intros line l E; destruct (V line l E) as [Nd Hin]; split; [exact Nd|]; intros c0 Hc; apply elem_of_union_r; by apply Hin].
  - assert (In : inside Serve f = true) by (cbn; by rewrite Es). split; try easy_field; try easy_field2.
    all: try solve [apply (lock_drop f _ Serve); [exact L|exact In| |reflexivity|reflexivity]; intros [| |j] N; unfold inside; fields; try reflexivity; done].
    all: try solve [unfold counted in *; fields; rewrite W, Es; lia].
  - split; try easy_field; try easy_field2.
    all: try solve [lsame; by rewrite Es].
    all: try solve [unfold counted in *; fields; rewrite W, Es; lia].
  - destruct (wg_pos f I) as (n & En & Cn); [unfold counted; rewrite Es; lia|]. unfold wg_done. rewrite En. split; try easy_field; try easy_field2.
    all: try solve [lsame; by rewrite Es].
    all: try solve [unfold counted in *; fields; rewrite Es in Cn; lia].
    all: try solve [fields; intros _; apply X; by left].
Qed.
Lemma inv_notify f f' : inv f -> f_notify marshal f f' -> inv f'.
Proof.
  intros I S. pose proof I as [L D W N1 N2 C1 C2 X CL CC K V].
  assert (Ns : x_n f <> FNone -> x_s f <> GNotify) by (intros E1 E2; apply E1, N1, E2).
  destruct S as [En|En Ea|En Ea|e r d En Eb Em|e r En Eb Em|En Eb Ec|d En El|d En|line l c En Hc Hl Hg|line l c n En Hc Hl Hn Hg|line l En Ha|En|En].
  - split; try easy_field; try easy_field2.
    all: try solve [lsame; by rewrite En].
    all: try solve [unfold counted in *; fields; rewrite W, En; lia].
  - split; try easy_field; try easy_field2.
    all: try solve [lsame; by rewrite En].
    all: try solve [unfold counted in *; fields; rewrite W, En; lia].
  - split; try easy_field; try easy_field2.
    all: try solve [lsame; by rewrite En].
    all: try solve [unfold counted in *; fields; rewrite W, En; lia].
  - split; try easy_field; try easy_field2.
    all: try solve [lsame; by rewrite En].
    all: try solve [unfold counted in *; fields; rewrite W, En; lia].
  - split; try easy_field; try easy_field2.
    all: try solve [lsame; by rewrite En].
    all: try solve [unfold counted in *; fields; rewrite W, En; lia].
  - split; try easy_field; try easy_field2.
    all: try solve [lsame; by rewrite En].
    all: try solve [unfold counted in *; fields; rewrite W, En; lia].
  - split; try easy_field; try easy_field2.
    all: try solve [apply (lock_take f _ Notify); [exact L|exact El| |reflexivity|reflexivity]; intros [| |j] N; unfold inside; fields; try reflexivity; done].
    all: try solve [unfold counted in *; fields; rewrite W, En; lia].
  - split; try easy_field; try easy_field2.
    all: try solve [lsame; by rewrite En].
    all: try solve [unfold counted in *; fields; rewrite W, En; lia].
    all: try solve [fields; intros line l [= <- <-]; split; [constructor|]; intros c Hc; by apply elem_of_nil in Hc].
  - split; try easy_field; try easy_field2.
    all: try solve [lsame; by rewrite En].
    all: try solve [unfold counted in *; fields; rewrite W, En; lia].
    all: try solve [fields; intros line0 l0 [= <- <-]; destruct (V line l En) as [Nd Hin]; split; [by constructor|]; intros c0 H0; apply elem_of_cons in H0 as [->|H0]; [done|by apply Hin]].
  - assert (Lk : forall j c0 p, (x_rem f ++ [(c, RAdd)]) !! j = Some (c0, p) -> p <> RAdd -> x_rem f !! j = Some (c0, p)).
    { intros j c0 p E Np. apply lookup_app_Some in E as [E|[_ E]]; [exact E|]. apply list_lookup_singleton_Some in E as [_ [= _ <-]]. done. }
    split; try easy_field; try easy_field2.
    all: try solve [lsame; [by rewrite En|]; destruct (x_rem f !! j) as [[c0 p]|] eqn:E; [by rewrite (lookup_app_l_Some _ _ _ _ E)|]; destruct ((x_rem f ++ [(c, RAdd)]) !! j) as [[c0 p]|] eqn:E2; [|done]; destruct p; try done; (rewrite (Lk j c0 _ E2) in E by done; done)].
    all: try solve [fields; intros i c0 E; eapply D; by apply (Lk i c0 RDelete E)].
    all: try solve [unfold counted in *; fields; rewrite sum_app, W, En; cbn; lia].
    all: try solve [fields; intros line0 l0 [= <- <-]; destruct (V line l En) as [Nd Hin]; split; [by constructor|]; intros c0 H0; apply elem_of_cons in H0 as [->|H0]; [done|by apply Hin]].
  - split; try easy_field; try easy_field2.
    all: try solve [lsame; by rewrite En].
    all: try solve [unfold counted in *; fields; rewrite W, En; lia].
  - assert (In : inside Notify f = true) by (cbn; by rewrite En). split; try easy_field; try easy_field2.
    all: try solve [apply (lock_drop f _ Notify); [exact L|exact In| |reflexivity|reflexivity]; intros [| |j] N; unfold inside; fields; try reflexivity; done].
    all: try solve [unfold counted in *; fields; rewrite W, En; lia].
  - destruct (wg_pos f I) as (n & Ew & Cn); [unfold counted; rewrite En; lia|]. unfold wg_done. rewrite Ew. split; try easy_field; try easy_field2.
    all: try solve [lsame; by rewrite En].
    all: try solve [unfold counted in *; fields; rewrite En in Cn; lia].
Qed.
Lemma inv_remover i f f' : inv f -> f_remover i f f' -> inv f'.
Proof.
  intros I S. pose proof I as [L D W N1 N2 C1 C2 X CL CC K V].
  assert (Sum : forall c p p', x_rem f !! i = Some (c, p) -> list_sum (map rcount (<[i := (c, p')]> (x_rem f))) + rcount (c, p) = list_sum (map rcount (x_rem f)) + rcount (c, p'))
    by (intros c p p' E; exact (sum_insert _ _ _ _ E)).
  assert (Lt : forall c p, x_rem f !! i = Some (c, p) -> i < length (x_rem f)) by (intros c p E; by eapply lookup_lt_Some).
  assert (Dl : forall c p p', x_rem f !! i = Some (c, p) -> p' <> RDelete -> forall j c0, <[i := (c, p')]> (x_rem f) !! j = Some (c0, RDelete) -> j <> i /\ x_rem f !! j = Some (c0, RDelete)).
  { intros c p p' E Np j c0 H. destruct (decide (j = i)) as [->|N]; [rewrite list_lookup_insert in H by (by eapply Lt); congruence|]. split; [done|]. by rewrite list_lookup_insert_ne in H. }
  destruct S as [c E|c E El|c E Hc|c E Hc|c E|c E|c E].
  - pose proof (Sum c RAdd RLock E) as Su. split; try easy_field; try easy_field2.
    all: try solve [lsame; destruct (decide (j = i)) as [->|N]; [rewrite list_lookup_insert by (by eapply Lt); by rewrite E|by rewrite list_lookup_insert_ne]].
    all: try solve [fields; intros j c0 H; apply (Dl c RAdd RLock E) in H as [_ H]; [|done]; by eapply D].
    all: try solve [unfold counted in *; fields; cbn in Su; lia].
  - pose proof (Sum c RLock RLook E) as Su. split; try easy_field; try easy_field2.
    all: try solve [apply (lock_take f _ (Remover i)); [exact L|exact El| | |reflexivity]; [(intros [| |j] N; unfold inside; fields; try reflexivity; rewrite list_lookup_insert_ne; [reflexivity|]; congruence) | (unfold inside; fields; rewrite list_lookup_insert by (by eapply Lt); done)]].
    all: try solve [fields; intros j c0 H; apply (Dl c RLock RLook E) in H as [_ H]; [|done]; by eapply D].
    all: try solve [unfold counted in *; fields; cbn in Su; lia].
  - pose proof (Sum c RLook RDelete E) as Su. split; try easy_field; try easy_field2.
    all: try solve [lsame; destruct (decide (j = i)) as [->|N]; [rewrite list_lookup_insert by (by eapply Lt); by rewrite E|by rewrite list_lookup_insert_ne]].
    all: try solve [fields; intros j c0 H; destruct (decide (j = i)) as [->|N]; [rewrite list_lookup_insert in H by (by eapply Lt); by injection H as <-|]; rewrite list_lookup_insert_ne in H by done; by eapply D].
    all: try solve [unfold counted in *; fields; cbn in Su; lia].
  - pose proof (Sum c RLook RUnlock E) as Su. split; try easy_field; try easy_field2.
    all: try solve [lsame; destruct (decide (j = i)) as [->|N]; [rewrite list_lookup_insert by (by eapply Lt); by rewrite E|by rewrite list_lookup_insert_ne]].
    all: try solve [fields; intros j c0 H; apply (Dl c RLook RUnlock E) in H as [_ H]; [|done]; by eapply D].
    all: try solve [unfold counted in *; fields; cbn in Su; lia].
  - assert (In : inside (Remover i) f = true) by (cbn; by rewrite E). pose proof (inside_other (Remover i) f I In) as Ot.
    pose proof (Sum c RDelete RUnlock E) as Su. split; try easy_field; try easy_field2.
    all: try solve [lsame; destruct (decide (j = i)) as [->|N]; [rewrite list_lookup_insert by (by eapply Lt); by rewrite E|by rewrite list_lookup_insert_ne]].
    all: try solve [fields; intros j c0 H; apply (Dl c RDelete RUnlock E) in H as [Nj H]; [|done]; specialize (Ot (Remover j)); cbn in Ot; rewrite H in Ot; discriminate Ot; congruence].
    all: try solve [unfold counted in *; fields; cbn in Su; lia].
    all: try solve [fields; intros line l En; specialize (Ot Notify); cbn in Ot; rewrite En in Ot; discriminate Ot; done].
  - assert (In : inside (Remover i) f = true) by (cbn; by rewrite E). pose proof (Sum c RUnlock RDone E) as Su. split; try easy_field; try easy_field2.
    all: try solve [apply (lock_drop f _ (Remover i)); [exact L|exact In| | |reflexivity]; [(intros [| |j] N; unfold inside; fields; try reflexivity; rewrite list_lookup_insert_ne; [reflexivity|]; congruence) | (unfold inside; fields; rewrite list_lookup_insert by (by eapply Lt); done)]].
    all: try solve [fields; intros j c0 H; apply (Dl c RUnlock RDone E) in H as [_ H]; [|done]; by eapply D].
    all: try solve [unfold counted in *; fields; cbn in Su; lia].
  - pose proof (Sum c RDone REnd E) as Su. pose proof (sum_lookup _ _ _ E) as Pos. cbn in Pos.
    destruct (wg_pos f I) as (n & Ew & Cn); [unfold counted; lia|]. unfold wg_done. rewrite Ew. split; try easy_field; try easy_field2.
    all: try solve [lsame; destruct (decide (j = i)) as [->|N]; [rewrite list_lookup_insert by (by eapply Lt); by rewrite E|by rewrite list_lookup_insert_ne]].
    all: try solve [fields; intros j c0 H; apply (Dl c RDone REnd E) in H as [_ H]; [|done]; by eapply D].
    all: try solve [unfold counted in *; fields; cbn in Su; lia].
Qed.
Lemma inv_step f f' : inv f -> fine_step f f' -> inv f'.
Proof.
  intros I S. destruct S as [[| |i] f' _ S|f' _ S|f' _ S|f' _ S].
  - by eapply inv_notify.
  - by eapply inv_serve.
  - by eapply inv_remover.
  - by eapply inv_cleanup.
  - by eapply inv_closer.
  - by eapply inv_outside.
Qed.
Lemma inv_reachable f : fine_reachable f -> inv f.
Proof.
  intros H. apply (rtc_ind_r (R := fine_step) inv finit); [exact inv_init|intros; by eapply inv_step|exact H].
Qed.
End Lock.
