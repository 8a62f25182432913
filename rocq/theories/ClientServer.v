(** The event client together with the server. *)
From Coq Require Import Strings.String.
From stdpp Require Import gmap.
From Coq Require Import NArith ZArith Lia.
From Verif Require Import GoBase Inetdiag EventName EventServer SpecEvents EventFacts P_Events EventClient SpecClient ClientFacts.
From Verif Require Reader SpecReader.
Local Open Scope list_scope.

(** Every beginning of a log is the log of an earlier state. *)
Lemma log_grows marshal s s' : step marshal s s' -> log s' = log s \/ exists o, log s' = log s ++ [o].
Proof. intros [s1 _ H|s1 _ H]; destruct H; cbn; eauto. Qed.
Lemma log_prefix marshal s : reachable marshal s -> forall l1 l2, log s = l1 ++ l2 -> exists s1, reachable marshal s1 /\ log s1 = l1.
Proof.
  revert s. apply (invariant marshal (fun s => forall l1 l2, log s = l1 ++ l2 -> exists s1, reachable marshal s1 /\ log s1 = l1)).
  - intros l1 l2 E. cbn in E. symmetry in E. apply app_eq_nil in E as [-> _]. exists init. split; [apply rtc_refl|reflexivity].
  - intros s s' Hr IH Hs l1 l2 E. destruct (log_grows _ _ _ Hs) as [L|[o L]]; rewrite L in E.
    + exact (IH _ _ E).
    + destruct l2 as [|x l2 _] using rev_ind.
      * exists s'. split; [|rewrite L, E; apply app_nil_r]. eapply rtc_r; [exact Hr|exact Hs].
      * rewrite app_assoc in E. apply app_inj_2 in E as [E _]; [|reflexivity]. exact (IH _ _ E).
Qed.

Section Together.
  Variable zone : Z -> Z.
  Notation marshal := (marshal_event zone).

  Lemma lines_of es : Forall (proper_event zone) es -> omap (line_of marshal) es = map (event_line zone) es.
  Proof.
    induction 1 as [|e es P _ IH]; [reflexivity|]. cbn [map].
    change (omap (line_of marshal) (e :: es)) with (match line_of marshal e with Some x => x :: omap (line_of marshal) es | None => omap (line_of marshal) es end).
    unfold line_of at 1. destruct (event_text_ok zone e P) as (-> & _). rewrite IH. reflexivity.
  Qed.
  Lemma map_split {A B} (f : A -> B) l x y : map f l = x ++ y -> exists a b, l = a ++ b /\ map f a = x /\ map f b = y.
  Proof.
    revert l. induction x as [|h x IH]; intros l E; [exists [], l; auto|].
    destruct l as [|a l]; [discriminate E|]. cbn in E. injection E as E1 E2. destruct (IH l E2) as (u & v & -> & <- & <-).
    exists (a :: u), v. cbn. rewrite E1. auto.
  Qed.
  Lemma submitted_app l l' : submitted (l ++ l') = submitted l ++ submitted l'.
  Proof. apply omap_app. Qed.

  (** The events broadcast since a client was added are a segment of those
      submitted. *)
  Lemma segment s l1 c l2 : reachable marshal s -> log s = l1 ++ OAdd c :: l2 -> Forall (proper_event zone) (submitted (log s)) ->
    exists before es after, submitted (log s) = before ++ es ++ after /\ map (event_line zone) es = broadcasts l2 /\
      length before <= length (submitted l1) /\ length after = length (in_hand (np s)) + length (buf s).
  Proof.
    intros Hr E P. pose proof (order_ok marshal s Hr) as O. unfold inv_order in O.
    assert (Pb : exists a, submitted (log s) = a ++ buf s).
    { clear -Hr. revert s Hr. apply (invariant marshal (fun s => exists a, submitted (log s) = a ++ buf s)).
      - exists []. reflexivity.
      - intros s s' _ [a A] [s1 _ H|s1 _ H]; destruct H; cbn [log buf np add_log set_np set_buf set_tasks set_clients set_next set_sp set_cp set_closed set_lclosed set_cancelled set_crashed];
        rewrite ?submitted_snoc, ?app_nil_r; try (exists a; exact A).
        + rewrite A, H0. exists (a ++ [e]). rewrite <- app_assoc. reflexivity.
        + rewrite A, H0. exists (a ++ [e]). rewrite <- app_assoc. reflexivity.
        + rewrite A. exists a. rewrite <- app_assoc. reflexivity. }
    destruct Pb as [a0 Pb]. rewrite (lines_of _ P) in O.
    assert (Pq : Forall (proper_event zone) (buf s)) by (rewrite Pb in P; apply Forall_app in P; apply P).
    rewrite (lines_of _ Pq), E, broadcasts_app in O. change (broadcasts (OAdd c :: l2)) with (broadcasts l2) in O.
    rewrite <- E in O. rewrite <- app_assoc in O. apply map_split in O. destruct O as (before & r & Es & Eb & O).
    apply map_split in O. destruct O as (es & after & -> & Ee & Ea). exists before, es, after.
    split; [exact Es|]. split; [exact Ee|]. split.
    - destruct (log_prefix marshal s Hr l1 _ E) as (s1 & R1 & L1). pose proof (order_ok marshal s1 R1) as O1. unfold inv_order in O1.
      rewrite L1 in O1. assert (P1 : Forall (proper_event zone) (submitted l1)).
      { rewrite E, submitted_app in P. apply Forall_app in P. apply P. }
      rewrite (lines_of _ P1) in O1. apply (f_equal length) in O1, Eb. rewrite map_length in O1, Eb. rewrite app_length in O1. lia.
    - apply (f_equal length) in Ea. rewrite app_length, !map_length in Ea. exact Ea.
  Qed.

  Lemma end_to_end s c l1 l2 i : reachable marshal s -> log s = l1 ++ OAdd c :: l2 -> ~ has_failed c (log s) -> waiting s c = None ->
    Forall (fun e => proper_event zone e /\ brief zone e) (submitted (log s)) ->
    SpecReader.solid i -> quiet (Reader.in_err i) -> SpecReader.contents i = received c (log s) ->
    exists before es after css, submitted (log s) = before ++ es ++ after /\
      length before <= length (submitted l1) /\ length after = length (in_hand (np s)) + length (buf s) /\
      Forall2 handled es css /\ must_run (Ret i) = Ret (concat css, Returned).
  Proof.
    intros Hr E Hf Hw P S Q C.
    assert (P1 : Forall (proper_event zone) (submitted (log s))) by (eapply Forall_impl; [exact P|]; intros e [K _]; exact K).
    assert (P2 : Forall (brief zone) (submitted (log s))) by (eapply Forall_impl; [exact P|]; intros e [_ K]; exact K).
    destruct (segment s l1 c l2 Hr E P1) as (before & es & after & Es & Ee & Lb & La).
    exists before, es, after, (map dispatch es). split; [exact Es|]. split; [exact Lb|]. split; [exact La|].
    assert (H : Forall2 handled es (map dispatch es)) by (apply forall_handled; reflexivity). split; [exact H|].
    rewrite Es in P1, P2. apply Forall_app in P1 as [_ P1], P2 as [_ P2]. apply Forall_app in P1 as [P1 _], P2 as [P2 _].
    apply (delivered zone i es); try assumption. rewrite C, Ee.
    pose proof (C43_received marshal s c l1 l2 Hr E Hf) as R. rewrite Hw in R. cbn in R. rewrite app_nil_r in R. exact R.
  Qed.

  (** A client to which a write has failed *)
  Lemma end_to_end_failed s c l1 l2 i : reachable marshal s -> log s = l1 ++ OAdd c :: l2 -> steady c (log s) ->
    Forall (fun e => proper_event zone e /\ brief zone e) (submitted (log s)) ->
    SpecReader.solid i -> quiet (Reader.in_err i) -> SpecReader.contents i = received c (log s) ->
    exists before es after css e, submitted (log s) = before ++ es ++ after /\
      length before <= length (submitted l1) /\
      Forall2 handled es css /\ must_run (Ret i) = Ret (concat css, e) /\ (e = Returned \/ e = Fatal ErrJSON).
  Proof.
    intros Hr E Hst P So Q C.
    assert (P1 : Forall (proper_event zone) (submitted (log s))) by (eapply Forall_impl; [exact P|]; intros e [K _]; exact K).
    assert (P2 : Forall (brief zone) (submitted (log s))) by (eapply Forall_impl; [exact P|]; intros e [_ K]; exact K).
    destruct (segment s l1 c l2 Hr E P1) as (before & es & after & Es & Ee & Lb & La).
    destruct (C43_segment marshal s c l1 l2 Hr E Hst) as (k & part & R & Hp). rewrite <- Ee in R, Hp. rewrite <- C in R.
    rewrite firstn_map in R. rewrite Es in P1, P2. apply Forall_app in P1 as [_ P1], P2 as [_ P2]. apply Forall_app in P1 as [P1 _], P2 as [P2 _].
    assert (Hk : forall n, Forall (proper_event zone) (firstn n es) /\ Forall (brief zone) (firstn n es)) by (intros n; split; apply Forall_take; assumption).
    assert (Sp : forall n, before ++ es ++ after = before ++ firstn n es ++ (skipn n es ++ after)).
    { intros n. rewrite (app_assoc (firstn n es)), firstn_skipn. reflexivity. }
    assert (FH : forall es, Forall2 handled es (map dispatch es)) by (intros es'; apply forall_handled; reflexivity).
    assert (Whole : part = [] -> exists before0 es0 after0 css e, submitted (log s) = before0 ++ es0 ++ after0 /\
      length before0 <= length (submitted l1) /\ Forall2 handled es0 css /\ must_run (Ret i) = Ret (concat css, e) /\ (e = Returned \/ e = Fatal ErrJSON)).
    { intros ->. rewrite app_nil_r in R. exists before, (firstn k es), (skipn k es ++ after), (map dispatch (firstn k es)), Returned.
      split; [rewrite Es; apply Sp|]. split; [exact Lb|]. split; [apply FH|]. split; [|left; reflexivity].
      apply (delivered zone i (firstn k es)); try assumption; try apply Hk. apply FH. }
    destruct Hp as [Hp|(line & Hl & Hp)]; [exact (Whole Hp)|].
    rewrite list_lookup_fmap in Hl. destruct (es !! k) as [e|] eqn:Ek; [|discriminate Hl]. cbn in Hl. injection Hl as <-.
    destruct Hp as [q Hp].
    assert (Pe : proper_event zone e /\ brief zone e).
    { split; [eapply Forall_lookup_1; [exact P1|exact Ek]|eapply Forall_lookup_1; [exact P2|exact Ek]]. }
    destruct part as [|b part]; [exact (Whole eq_refl)|].
    unfold event_line in Hp. destruct q as [|x q _] using rev_ind.
    { (* the whole line *)
      rewrite app_nil_r in Hp. exists before, (firstn (S k) es), (skipn (S k) es ++ after), (map dispatch (firstn (S k) es)), Returned.
      split; [rewrite Es; apply Sp|]. split; [exact Lb|]. split; [apply FH|]. split; [|left; reflexivity].
      apply (delivered zone i (firstn (S k) es)); try assumption; try apply Hk; [apply FH|].
      rewrite R, (take_S_r _ _ _ Ek), map_app, concat_app. cbn [map concat]. rewrite app_nil_r. change (event_line zone e) with (event_text zone e ++ [x0a]). rewrite Hp. reflexivity. }
    rewrite app_assoc in Hp. apply app_inj_2 in Hp as [Hp _]; [|reflexivity].
    destruct (cut_short zone i (firstn k es) (map dispatch (firstn k es)) e (b :: part) q) as [C1 C2]; try apply Hk; try apply Pe; try assumption; [apply FH|discriminate|].
    destruct q as [|y q].
    - specialize (C2 eq_refl Q). exists before, (firstn (S k) es), (skipn (S k) es ++ after), (map dispatch (firstn (S k) es)), Returned.
      split; [rewrite Es; apply Sp|]. split; [exact Lb|]. split; [apply FH|]. split; [|left; reflexivity].
      rewrite C2, (take_S_r _ _ _ Ek), map_app, concat_app. cbn [map concat]. rewrite app_nil_r. reflexivity.
    - specialize (C1 ltac:(discriminate)). exists before, (firstn k es), (skipn k es ++ after), (map dispatch (firstn k es)), (Fatal ErrJSON).
      split; [rewrite Es; apply Sp|]. split; [exact Lb|]. split; [apply FH|]. split; [exact C1|right; reflexivity].
  Qed.
End Together.
