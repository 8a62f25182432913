(** The start of main and the file of the event socket. *)
From Coq Require Import Strings.String List Arith Bool Lia.
From Verif Require Import GoBase GoBaseFacts Startup SpecStartup.
Import ListNotations.
Local Open Scope list_scope.

Lemma at_put p n m : at_path (put p n m) p = n.
Proof. unfold put. cbn. now rewrite bytes_eqb_refl. Qed.
Lemma at_put_other p n m q : q <> p -> at_path (put p n m) q = at_path m q.
Proof. unfold put. cbn. intros H. destruct (bytes_eqb q p) eqn:E; [|reflexivity]. apply bytes_eqb_eq in E. contradiction. Qed.
Lemma existsb_in i l : existsb (Nat.eqb i) l = true <-> In i l.
Proof.
  rewrite existsb_exists. split; [intros (x & H & E); apply Nat.eqb_eq in E; now subst|]. intros H. exists i. now rewrite Nat.eqb_refl.
Qed.
Lemma filter_in i j l : In j (filter (fun j => negb (Nat.eqb j i)) l) <-> In j l /\ j <> i.
Proof.
  rewrite filter_In. split; intros [H1 H2]; split; try exact H1.
  - apply negb_true_iff, Nat.eqb_neq in H2. exact H2.
  - apply negb_true_iff, Nat.eqb_neq. exact H2.
Qed.


Lemma remove_at p m : at_path (os_remove p m) p = if removable (at_path m p) then Nothing else at_path m p.
Proof. unfold os_remove. destruct (at_path m p) as [|d|[]|i] eqn:E; cbn [removable]; try apply at_put. exact E. Qed.
Lemma remove_other p m q : q <> p -> at_path (os_remove p m) q = at_path m q.
Proof. intros H. unfold os_remove. destruct (at_path m p) as [|d|[]|i]; try (now apply at_put_other). reflexivity. Qed.
Lemma remove_rest p m : listening (os_remove p m) = listening m /\ next_listener (os_remove p m) = next_listener m.
Proof. unfold os_remove. destruct (at_path m p) as [|d|[]|i]; split; reflexivity. Qed.

Lemma listen_ok p m : removable (at_path m p) = true ->
  exists m', listen true p m = (Some (next_listener m), m') /\ at_path m' p = Socket (next_listener m) /\
    listening m' = next_listener m :: listening m /\ next_listener m' = S (next_listener m) /\
    forall q, q <> p -> at_path m' q = at_path m q.
Proof.
  intros H. unfold listen, net_listen. rewrite remove_at, H. destruct (remove_rest p m) as [E1 E2]. cbn zeta. rewrite E2. eexists. split; [reflexivity|].
  cbn [at_path listening next_listener]. rewrite at_put. split; [reflexivity|]. cbn. rewrite E1.
  split; [reflexivity|]. split; [reflexivity|].
  intros q Hq. destruct (bytes_eqb q p) eqn:B; [apply bytes_eqb_eq in B; contradiction|]. now apply remove_other.
Qed.
Lemma listen_fails ok p m : ok = false \/ removable (at_path m p) = false ->
  exists m', listen ok p m = (None, m') /\ listening m' = listening m /\ next_listener m' = next_listener m /\
    (at_path m' p = if removable (at_path m p) then Nothing else at_path m p) /\ forall q, q <> p -> at_path m' q = at_path m q.
Proof.
  intros H. exists (os_remove p m). destruct (remove_rest p m) as [E1 E2]. split.
  - unfold listen, net_listen. rewrite remove_at. destruct (removable (at_path m p)) eqn:R.
    + destruct H as [->|H]; [reflexivity|discriminate H].
    + destruct (at_path m p) as [|d|[]|i]; try discriminate R. reflexivity.
  - split; [exact E1|]. split; [exact E2|]. split; [apply remove_at|]. intros q Hq. now apply remove_other.
Qed.
Lemma listen_cases ok p m : (exists m', listen ok p m = (Some (next_listener m), m') /\ at_path m' p = Socket (next_listener m) /\
    listening m' = next_listener m :: listening m /\ next_listener m' = S (next_listener m) /\ ok = true /\ removable (at_path m p) = true) \/
  (exists m', listen ok p m = (None, m') /\ listening m' = listening m /\ next_listener m' = next_listener m /\
    (at_path m' p = if removable (at_path m p) then Nothing else at_path m p)).
Proof.
  destruct ok, (removable (at_path m p)) eqn:R.
  - destruct (listen_ok p m R) as (m' & H1 & H2 & H3 & H4 & _). left. exists m'. auto 10.
  - destruct (listen_fails true p m (or_intror R)) as (m' & H1 & H2 & H3 & H4 & _). right. exists m'. rewrite R in H4. auto 10.
  - destruct (listen_fails false p m (or_introl eq_refl)) as (m' & H1 & H2 & H3 & H4 & _). right. exists m'. rewrite R in H4. auto 10.
  - destruct (listen_fails false p m (or_introl eq_refl)) as (m' & H1 & H2 & H3 & H4 & _). right. exists m'. rewrite R in H4. auto 10.
Qed.

(** ** Histories *)
(** A socket there is that of the latest listener. *)
Definition latest (p : bytes) (m : machine) : Prop := forall i, at_path m p = Socket i -> S i = next_listener m.
Lemma happen_fresh p h m : fresh m -> fresh (happen p m h).
Proof.
  intros F. destruct h as [ok|i|i|n]; cbn [happen].
  - destruct (listen_cases ok p m) as [(m' & -> & _ & L & N & _)|(m' & -> & L & N & _)]; cbn [snd]; intros j; rewrite L, N.
    + intros [<-|H]; [lia|]. specialize (F j H). lia.
    + apply F.
  - unfold close_listener. destruct (existsb _ _); [|exact F].
    intros j. cbn [listening next_listener]. rewrite filter_in. intros [H _]. destruct (at_path m p); apply F; exact H.
  - intros j. cbn [die listening next_listener]. rewrite filter_in. intros [H _]. now apply F.
  - exact F.
Qed.
Lemma happen_latest p h m : honest h = true -> latest p m -> latest p (happen p m h).
Proof.
  intros Hh F. destruct h as [ok|i|i|n]; cbn [happen].
  - destruct (listen_cases ok p m) as [(m' & -> & A & L & N & _)|(m' & -> & L & N & A)]; cbn [snd]; intros j; rewrite A, N.
    + now intros [= <-].
    + destruct (removable (at_path m p)); [discriminate|]. apply F.
  - unfold close_listener. destruct (existsb _ _); [|exact F].
    intros j. destruct (at_path m p) as [|d|b|k] eqn:E; cbn [at_path]; rewrite ?at_put; try discriminate. rewrite E. discriminate.
  - exact F.
  - intros j. rewrite at_put. intros ->. discriminate Hh.
Qed.
Lemma history_fresh p n hs : fresh (history p n hs).
Proof.
  unfold history. assert (F : fresh (mkmachine (fun q => if bytes_eqb q p then n else Nothing) [] 0)) by (intros i []).
  revert F. generalize (mkmachine (fun q => if bytes_eqb q p then n else Nothing) [] 0). induction hs as [|h hs IH]; intros m F; [exact F|]. cbn. apply IH, happen_fresh, F.
Qed.
Lemma history_latest p n hs : (forall i, n <> Socket i) -> forallb honest hs = true -> latest p (history p n hs).
Proof.
  intros Hn. unfold history. assert (F : latest p (mkmachine (fun q => if bytes_eqb q p then n else Nothing) [] 0)).
  { intros i. cbn. rewrite bytes_eqb_refl. intros E. now apply Hn in E. }
  revert F. generalize (mkmachine (fun q => if bytes_eqb q p then n else Nothing) [] 0). induction hs as [|h hs IH]; intros m F Hh; [exact F|].
  cbn in Hh. apply andb_prop in Hh as [H1 H2]. cbn. apply IH; [now apply happen_latest|exact H2].
Qed.
Lemma happen_removable p h m : mild h = true -> removable (at_path m p) = true -> removable (at_path (happen p m h) p) = true.
Proof.
  intros Hh F. destruct h as [ok|i|i|n]; cbn [happen].
  - destruct (listen_cases ok p m) as [(m' & -> & A & _)|(m' & -> & _ & _ & A)]; cbn [snd]; rewrite A; [reflexivity|]. now rewrite F.
  - unfold close_listener. destruct (existsb _ _); [|exact F]. destruct (at_path m p) as [|d|b|k] eqn:E; cbn [at_path]; rewrite ?at_put; try reflexivity. now rewrite E.
  - exact F.
  - rewrite at_put. exact Hh.
Qed.
Lemma history_removable p n hs : removable n = true -> forallb mild hs = true -> removable (at_path (history p n hs) p) = true.
Proof.
  intros Hn. unfold history. assert (F : removable (at_path (mkmachine (fun q => if bytes_eqb q p then n else Nothing) [] 0) p) = true) by (cbn; now rewrite bytes_eqb_refl).
  revert F. generalize (mkmachine (fun q => if bytes_eqb q p then n else Nothing) [] 0). induction hs as [|h hs IH]; intros m F Hh; [exact F|].
  cbn in Hh. apply andb_prop in Hh as [H1 H2]. cbn. apply IH; [now apply happen_removable|exact H2].
Qed.

Lemma reached_stays p i hs : forall m, dial p m = Some i -> forallb (harmless i) hs = true -> dial p (fold_left (happen p) hs m) = Some i.
Proof.
  induction hs as [|h hs IH]; intros m D Hh; [exact D|]. cbn in Hh. apply andb_prop in Hh as [H1 H2]. cbn. apply IH; [|exact H2].
  destruct h as [ok|j|j|n]; try discriminate H1. cbn [harmless] in H1. apply negb_true_iff, Nat.eqb_neq in H1.
  unfold dial, happen, die in *. cbn [at_path listening]. destruct (at_path m p) as [|d|b|k]; try discriminate D.
  destruct (existsb (Nat.eqb k) (listening m)) eqn:E; [|discriminate D]. injection D as ->.
  assert (X : existsb (Nat.eqb i) (filter (fun j0 => negb (Nat.eqb j0 j)) (listening m)) = true); [|now rewrite X].
  apply existsb_in, filter_in. split; [now apply existsb_in|congruence].
Qed.
(** A listener that is not open is never reached again. *)
Lemma gone_stays p i hs : forall m, ~ In i (listening m) -> i < next_listener m ->
  ~ In i (listening (fold_left (happen p) hs m)).
Proof.
  induction hs as [|h hs IH]; intros m H N; [exact H|]. cbn. 
  assert (K : ~ In i (listening (happen p m h)) /\ i < next_listener (happen p m h)).
  { destruct h as [ok|j|j|n]; cbn [happen].
    - destruct (listen_cases ok p m) as [(m' & -> & _ & L & E & _)|(m' & -> & L & E & _)]; cbn [snd]; rewrite L, E.
      + split; [|lia]. intros [X|X]; [lia|contradiction].
      + split; [exact H|exact N].
    - unfold close_listener. destruct (existsb _ _); [|split; assumption]. cbn [listening next_listener]. rewrite filter_in.
      split; [intros [X _]|]; destruct (at_path m p); cbn in *; try contradiction; exact N.
    - cbn [die listening next_listener]. rewrite filter_in. split; [intros [X _]; contradiction|exact N].
    - split; [exact H|exact N]. }
  apply IH; apply K.
Qed.
Lemma dial_listening p m i : dial p m = Some i -> In i (listening m) /\ at_path m p = Socket i.
Proof.
  unfold dial. destruct (at_path m p) as [|d|b|k] eqn:E; try discriminate. destruct (existsb (Nat.eqb k) (listening m)) eqn:X; [|discriminate].
  intros [= ->]. split; [now apply existsb_in|reflexivity].
Qed.
Lemma closed_gone p i m : ~ In i (listening (close_listener i p m)).
Proof.
  unfold close_listener. destruct (existsb _ _) eqn:E.
  - cbn [listening]. rewrite filter_in. tauto.
  - intros H. apply existsb_in in H. congruence.
Qed.
Lemma died_gone i m : ~ In i (listening (die i m)).
Proof. cbn [die listening]. rewrite filter_in. tauto. Qed.
Lemma history_app p n h1 h2 : history p n (h1 ++ h2) = fold_left (happen p) h2 (history p n h1).
Proof. apply fold_left_app. Qed.
