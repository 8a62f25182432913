(** Facts about the timing of collector.Run. *)
From stdpp Require Import base list relations.
From Coq Require Import ZArith Lia.
From Verif Require Import GoBase GoTime Netlink Inetdiag Saver Collector SpecCollector Ticker.

Definition bit (b : bool) : nat := if b then 1 else 0.
Lemma tick_div s : (t_next s <= t_now s -> 0 <= (t_now s - t_next s) / interval /\ t_now s < t_next s + interval * (1 + (t_now s - t_next s) / interval))%Z.
Proof.
  intros H. assert (0 < interval)%Z by reflexivity. split; [apply Z.div_pos; lia|].
  pose proof (Z.mod_pos_bound (t_now s - t_next s) interval). pose proof (Z.div_mod (t_now s - t_next s) interval). lia.
Qed.
Lemma interval_pos : (0 < interval)%Z. Proof. reflexivity. Qed.

Section Facts.
Variables (v : environment) (reps : Z) (lat dur : option Z) (b : Z).
Notation timed := (timed v reps lat dur b).

(** ** How many iterations there can be *)
Definition paced (s : timing) : Prop :=
  (t_begin s = b /\ t_since s <= t_now s /\
   b + interval * Z.of_nat (t_loops s + bit (t_chan s)) <= t_now s /\
   b + interval * Z.of_nat (S (t_loops s + bit (t_chan s))) <= t_next s /\
   b + interval * Z.of_nat (t_loops s) <= t_since s)%Z /\
  (match t_place s with Starting | Checking => length (t_starts s) = t_loops s /\ length (t_ends s) = t_loops s
   | Collecting => length (t_starts s) = S (t_loops s) /\ length (t_ends s) = t_loops s
   | Awaiting => length (t_starts s) = S (t_loops s) /\ length (t_ends s) = S (t_loops s)
   | Stopped => length (t_starts s) = t_loops s /\ length (t_ends s) = t_loops s end) /\
  (t_place s = Starting -> t_loops s = 0) /\
  (forall k t, t_starts s !! k = Some t -> (b + interval * Z.of_nat k <= t /\ t <= t_now s)%Z) /\
  (forall k t, t_ends s !! k = Some t -> exists t0, t_starts s !! k = Some t0 /\
     (t0 <= v_clock v k AF_INET6 /\ v_clock v k AF_INET6 <= v_clock v k AF_INET /\ v_clock v k AF_INET <= t /\ t <= t_now s)%Z) /\
  (forall k t t', t_ends s !! k = Some t -> t_starts s !! S k = Some t' -> (t <= t')%Z) /\
  (t_place s = Collecting -> t_starts s !! t_loops s = Some (t_since s)).
Lemma snoc_lookup {A} (l : list A) x k y : (l ++ [x]) !! k = Some y -> l !! k = Some y \/ k = length l /\ y = x.
Proof. intros H. apply lookup_app_Some in H as [H|(Hl & H)]; [by left|right]. apply list_lookup_singleton_Some in H as (E & <-). split; [lia|done]. Qed.
Lemma timed_paced s : timed s -> paced s.
Proof.
  pose proof interval_pos as IP. apply (rtc_ind_r (R := passes v reps lat dur) paced (started b)).
  - unfold paced, started. cbn. repeat split; try lia; intros; discriminate.
  - clear s. intros x y _ St ((B & S0 & N1 & N2 & SB) & L & ZL & Ss & Es & O & C). destruct St; unfold paced; cbn.
    + split; [lia|]. split; [exact L|]. split; [exact ZL|]. split; [intros k u H1; specialize (Ss k u H1); lia|].
      split; [|split; [exact O|exact C]]. intros k u H1. destruct (Es k u H1) as (t0 & E0 & Q). exists t0. split; [exact E0|lia].
    + pose proof (tick_div s H) as (D1 & D2).
      assert (D3 : (t_next s + interval <= t_next s + interval * (1 + (t_now s - t_next s) / interval))%Z) by nia.
      split; [|split; [exact L|split; [exact ZL|split; [exact Ss|split; [exact Es|split; [exact O|]]]]]].
      * split; [exact B|]. split; [destruct (t_place s), (t_chan s); lia|]. destruct (t_chan s); cbn [bit] in *.
        { split; [lia|]. split; [lia|]. destruct (t_place s); lia. }
        { split; [lia|]. split; [lia|]. destruct (t_place s); lia. }
      * intros E. rewrite E. apply C. exact E.
    + rewrite H in L. split; [lia|]. split; [exact L|]. split; [done|]. split; [exact Ss|]. split; [exact Es|]. split; [exact O|done].
    + rewrite H in L. destruct L as (L1 & L2). split; [lia|]. split; [rewrite app_length; cbn; lia|]. split; [done|].
      split; [intros k u E; apply snoc_lookup in E as [E|(-> & ->)]; [exact (Ss k u E)|]; rewrite L1; lia|].
      split; [intros k u E; destruct (Es k u E) as (t0 & E0 & Q); exists t0; split; [by apply lookup_app_l_Some|exact Q]|].
      split; [|intros _; rewrite lookup_app_r, L1, Nat.sub_diag by lia; reflexivity].
      intros k u u' E E'. apply snoc_lookup in E' as [E'|(E1 & ->)]; [exact (O k u u' E E')|]. destruct (Es k u E) as (t0 & _ & Q). lia.
    + rewrite H in L. split; [lia|]. split; [exact L|]. split; [done|]. split; [exact Ss|]. split; [exact Es|]. split; [exact O|done].
    + rewrite H in L. destruct L as (L1 & L2). split; [lia|]. split; [rewrite app_length; cbn; lia|]. split; [done|].
      split; [exact Ss|]. split; [|split; [|done]].
      * intros k u E. apply snoc_lookup in E as [E|(-> & ->)]; [exact (Es k u E)|]. exists (t_since s). rewrite L2. split; [exact (C H)|lia].
      * intros k u u' E E'. apply snoc_lookup in E as [E|(-> & ->)]; [exact (O k u u' E E')|]. apply lookup_lt_Some in E'. lia.
    + rewrite H in L. rewrite H0 in N1, N2. cbn [bit] in *. split; [lia|]. split; [lia|]. split; [done|]. split; [exact Ss|]. split; [exact Es|]. split; [exact O|done].
Qed.

(** ** What is observed *)
Fixpoint differences (last : Z) (l : list Z) : list Z := match l with [] => [] | t :: l => (t - last)%Z :: differences t l end.
Lemma last_cons (l : list Z) : forall x z, List.last (x :: l) z = List.last l x.
Proof. induction l as [|y l IH]; intros x z; [reflexivity|]. change (List.last (x :: y :: l) z) with (List.last (y :: l) z). by rewrite !IH. Qed.
Lemma differences_snoc l : forall last t, differences last (l ++ [t]) = differences last l ++ [(t - List.last l last)%Z].
Proof.
  induction l as [|x l IH]; intros z t; [reflexivity|]. cbn [app differences]. rewrite IH, last_cons. reflexivity.
Qed.
Definition observing (s : timing) : Prop :=
  t_place s = Starting /\ t_ends s = [] /\ t_starts s = [] /\ t_observed s = [] \/
  exists t0, (b <= t0)%Z /\ (forall t, t_starts s !! 0 = Some t -> (t0 <= t)%Z) /\ (t0 <= t_now s)%Z /\
    t_observed s = differences (t0 - interval) (t_ends s) /\ t_last s = List.last (t_ends s) (t0 - interval)%Z /\ t_place s <> Starting.
Lemma timed_observing s : timed s -> observing s.
Proof.
  intros H. cut (observing s /\ (b <= t_now s)%Z); [tauto|]. revert H.
  apply (rtc_ind_r (R := passes v reps lat dur) (fun s => observing s /\ (b <= t_now s)%Z) (started b)).
  - split; [|cbn; lia]. left. done.
  - clear s. intros x y _ St ([(P & E & S0 & O)|(t0 & B & F & N & O & L & P)] & Hb); destruct St; unfold observing; cbn in *; try congruence;
      (split; [|lia]); try (left; done); right.
    + exists (t_now s). rewrite E, S0, O. split; [lia|]. split; [done|]. split; [lia|]. done.
    + exists t0. split; [lia|]. split; [exact F|]. split; [lia|]. done.
    + exists t0. done.
    + exists t0. split; [lia|]. split; [|done]. intros t E. apply snoc_lookup in E as [E|(_ & ->)]; [exact (F t E)|lia].
    + exists t0. done.
    + exists t0. split; [lia|]. split; [exact F|]. split; [lia|]. rewrite differences_snoc, O, L, List.last_last. done.
    + exists t0. done.
Qed.

(** ** No bursts *)
Definition spread (i : nat) (s : timing) : Prop := forall a, t_starts s !! i = Some a ->
  i <= t_loops s /\ (a <= t_now s)%Z /\
  (i + 2 <= t_loops s + bit (t_chan s) -> (a + interval * (Z.of_nat (t_loops s + bit (t_chan s)) - Z.of_nat i - 2) < t_next s)%Z) /\
  (i + 3 <= t_loops s + bit (t_chan s) -> (a + interval * (Z.of_nat (t_loops s + bit (t_chan s)) - Z.of_nat i - 3) < t_now s)%Z) /\
  (forall j t, t_starts s !! j = Some t -> i + 3 <= j -> (a + interval * (Z.of_nat j - Z.of_nat i - 3) < t)%Z).
Lemma timed_spread i s : timed s -> spread i s.
Proof.
  intros H. cut (spread i s /\ paced s); [tauto|]. pose proof interval_pos as IP. split; [|by apply timed_paced]. revert H.
  apply (rtc_ind_r (R := passes v reps lat dur) (spread i) (started b)).
  - intros a H. discriminate H.
  - clear s. intros x y Hx St IH. pose proof (timed_paced x Hx) as (_ & L & _). destruct St; intros a E; cbn in *.
    + destruct (IH a E) as (I0 & I1 & I2 & I3 & I4). split; [exact I0|]. split; [lia|]. split; [exact I2|]. split; [|exact I4].
      intros K. specialize (I3 K). lia.
    + pose proof (tick_div s H) as (D1 & D2). destruct (IH a E) as (I0 & I1 & I2 & I3 & I4). split; [exact I0|]. split; [lia|].
      assert (D3 : (t_next s + interval <= t_next s + interval * (1 + (t_now s - t_next s) / interval))%Z) by nia.
      destruct (t_chan s); cbn [bit] in *.
      * split; [intros K; specialize (I2 K); lia|]. split; [exact I3|exact I4].
      * split; [|split; [|exact I4]].
        { intros K. destruct (decide (i + 2 <= t_loops s + 0)) as [Q|Q]; [specialize (I2 Q); lia|].
          replace (Z.of_nat (t_loops s + 1) - Z.of_nat i - 2)%Z with 0%Z by lia. lia. }
        { intros K. assert (Q : i + 2 <= t_loops s + 0) by lia. specialize (I2 Q). lia. }
    + exact (IH a E).
    + rewrite H in L. destruct L as (L1 & _). apply snoc_lookup in E as [E|(-> & ->)].
      * destruct (IH a E) as (I0 & I1 & I2 & I3 & I4). split; [exact I0|]. split; [exact I1|]. split; [exact I2|]. split; [exact I3|].
        intros j t Ej Hj. apply snoc_lookup in Ej as [Ej|(-> & ->)]; [exact (I4 j t Ej Hj)|].
        assert (Q : i + 3 <= t_loops s + bit (t_chan s)) by lia. specialize (I3 Q). destruct (t_chan s); cbn [bit] in *; nia.
      * split; [lia|]. split; [lia|]. split; [destruct (t_chan s); cbn [bit]; lia|]. split; [destruct (t_chan s); cbn [bit]; lia|].
        intros j t Ej Hj. apply lookup_lt_Some in Ej. rewrite app_length in Ej. cbn in Ej. lia.
    + exact (IH a E).
    + exact (IH a E).
    + destruct (IH a E) as (I0 & I1 & I2 & I3 & I4). rewrite H0 in I2, I3. cbn [bit] in *.
      replace (t_loops s + 1) with (S (t_loops s + 0)) in * by lia.
      split; [lia|]. split; [exact I1|]. split; [exact I2|]. split; [exact I3|exact I4].
Qed.

(** ** Which iterations there are *)
Lemma condition_due n : ((reps =? 0)%Z || (Z.of_nat n <? reps)%Z) && negb (v_cancelled v n) = true <-> due v reps n.
Proof. unfold due. rewrite andb_true_iff, orb_true_iff, negb_true_iff, Z.eqb_eq, Z.ltb_lt. tauto. Qed.
Lemma timed_due s : timed s -> (forall k, k < length (t_starts s) -> due v reps k) /\ (t_place s = Stopped -> ~ due v reps (t_loops s)).
Proof.
  apply (rtc_ind_r (R := passes v reps lat dur) (fun s => (forall k, k < length (t_starts s) -> due v reps k) /\ (t_place s = Stopped -> ~ due v reps (t_loops s))) (started b)).
  - split; [cbn; lia|discriminate].
  - clear s. intros x y Hx St (D & E). pose proof (timed_paced x Hx) as (_ & L & _). destruct St; cbn in *; try (split; [exact D|first [exact E|discriminate]]).
    + rewrite H in L. split; [|discriminate]. intros k K. rewrite app_length in K. cbn in K. destruct (decide (k = t_loops s)) as [->|N]; [by apply condition_due|].
      apply D. lia.
    + split; [exact D|]. intros _ K. apply condition_due in K. congruence.
Qed.
(** Waiting ends with the next iteration's condition. *)
Lemma wait_ends s : match lat with Some l => (0 <= l)%Z | None => True end -> t_place s = Awaiting ->
  exists s', rtc (passes v reps lat dur) s s' /\ t_place s' = Checking /\ t_loops s' = S (t_loops s) /\ t_starts s' = t_starts s /\ (t_now s' <= Z.max (t_now s) (t_next s))%Z.
Proof.
  intros Hl P. destruct (t_chan s) eqn:C.
  - eexists. split; [apply rtc_once, ps_receive; [exact P|exact C]|]. cbn. repeat split; lia.
  - destruct (Z_lt_ge_dec (t_now s) (t_next s)) as [H|H].
    + eexists. split.
      * eapply rtc_l; [apply (ps_time _ _ _ _ s (t_next s)); [lia|]|].
        { split; [destruct lat; cbn; lia|]. rewrite P, C. discriminate. }
        eapply rtc_l; [apply ps_tick; cbn; lia|]. apply rtc_once, ps_receive; [exact P|reflexivity].
      * cbn. repeat split; lia.
    + eexists. split.
      * eapply rtc_l; [apply ps_tick; lia|]. apply rtc_once, ps_receive; [exact P|reflexivity].
      * cbn. repeat split; lia.
Qed.
Lemma differences_lookup l : forall z, (forall t, l !! 0 = Some t -> differences z l !! 0 = Some (t - z)%Z) /\
  (forall k t t', l !! k = Some t -> l !! S k = Some t' -> differences z l !! S k = Some (t' - t)%Z) /\ length (differences z l) = length l.
Proof.
  induction l as [|x l IH]; intros z; [repeat split; intros; discriminate|]. destruct (IH x) as (A & B & C). split; [|split].
  - intros t [= ->]. reflexivity.
  - intros [|k] t t' E E'; cbn in *; [injection E as ->; by apply A|by eapply B].
  - cbn. by rewrite C.
Qed.
End Facts.

(** ** When everything is punctual *)
Section Regular.
Variables (v : environment) (reps : Z) (l d : Z) (b : Z).
Hypothesis (Hl : (0 <= l)%Z) (Hd : (0 <= d)%Z) (Hsum : (3 * l + d < interval)%Z).
Notation timed := (timed v reps (Some l) (Some d) b).
Definition due_at (n : nat) : Z := (b + interval * Z.of_nat n)%Z.
Definition regular (s : timing) : Prop :=
  match t_place s with
  | Starting => t_chan s = false /\ t_loops s = 0 /\ t_next s = due_at 1 /\ (t_since s = b /\ b <= t_now s <= b + l)%Z
  | Checking => t_chan s = false /\ t_next s = due_at (S (t_loops s)) /\
      (due_at (t_loops s) <= t_since s <= due_at (t_loops s) + 2 * l /\ t_since s <= t_now s <= t_since s + l)%Z
  | Collecting => t_chan s = false /\ t_next s = due_at (S (t_loops s)) /\
      (due_at (t_loops s) <= t_since s <= due_at (t_loops s) + 3 * l /\ t_since s <= t_now s <= t_since s + d)%Z
  | Awaiting =>
      if t_chan s then t_next s = due_at (S (S (t_loops s))) /\
        (due_at (S (t_loops s)) <= t_since s <= due_at (S (t_loops s)) + l /\ t_since s <= t_now s <= t_since s + l)%Z
      else t_next s = due_at (S (t_loops s)) /\ (due_at (t_loops s) <= t_now s <= due_at (S (t_loops s)) + l)%Z
  | Stopped => True
  end.
Definition on_time (s : timing) : Prop :=
  (forall k t, t_starts s !! k = Some t -> (due_at k <= t <= due_at k + 3 * l)%Z) /\
  (forall k t, t_ends s !! k = Some t -> (due_at k <= t <= due_at k + 3 * l + d)%Z).
Lemma due_S n : due_at (S n) = (due_at n + interval)%Z.
Proof. clear. unfold due_at. lia. Qed.
Lemma timed_regular s : timed s -> regular s /\ on_time s.
Proof.
  assert (IP : (0 < interval)%Z) by reflexivity.
  apply (rtc_ind_r (R := passes v reps (Some l) (Some d)) (fun s => regular s /\ on_time s) (started b)).
  - split; [|split; intros k t E; discriminate E]. unfold regular, due_at. cbn. repeat split; lia.
  - clear s. intros x y Hx St (R & O1 & O2). pose proof (timed_paced _ _ _ _ _ x Hx) as (_ & L & _).
    destruct St; unfold regular in *; cbn in *.
    + split; [|split; [exact O1|exact O2]]. unfold may_pass in H0. destruct H0 as (W1 & W2). cbn in W1.
      destruct (t_place s); cbn in W2; rewrite ?due_S in *; try (repeat split; try tauto; lia).
      destruct (t_chan s); [specialize (W2 eq_refl); cbn in W2|]; repeat split; try tauto; lia.
    + split; [|split; [exact O1|exact O2]].
      destruct (t_place s); rewrite ?due_S in *; try (exfalso; lia); try done.
      { exfalso. destruct R as (_ & _ & R1 & R2). unfold due_at in *. lia. }
      destruct (t_chan s); [exfalso; lia|].
      assert (Z0 : ((t_now s - t_next s) / interval = 0)%Z) by (apply Z.div_small; lia). rewrite Z0.
      repeat split; lia.
    + rewrite H in *. split; [|split; [exact O1|exact O2]]. destruct R as (R1 & R2 & R3 & R4). rewrite R2 in *. unfold due_at in *. repeat split; try tauto; lia.
    + rewrite H in *. destruct L as (L1 & L2). destruct R as (R1 & R2 & R3 & R4). split; [repeat split; try tauto; lia|]. split; [|exact O2].
      intros k t E. apply snoc_lookup in E as [E|(-> & ->)]; [exact (O1 k t E)|]. cbn in *. rewrite L1. lia.
    + rewrite H in *. split; [exact I|split; [exact O1|exact O2]].
    + rewrite H in *. destruct L as (L1 & L2). destruct R as (R1 & R2 & R3 & R4). rewrite R1. split; [rewrite due_S in *; repeat split; try tauto; lia|]. split; [exact O1|].
      intros k t E. apply snoc_lookup in E as [E|(-> & ->)]; [exact (O2 k t E)|]. rewrite L2. lia.
    + rewrite H, H0 in *. split; [|split; [exact O1|exact O2]]. destruct R as (R1 & R2 & R3). repeat split; try tauto; lia.
Qed.
End Regular.
