(** A server left to itself catches up, for C78. *)
From stdpp Require Import gmap.
From Coq Require Import NArith ZArith Lia.
From Verif Require Import GoBase EventServer SpecEvents EventFacts.
Local Open Scope list_scope.

Section CatchUp.
Variable marshal : flow_event -> option bytes.
Notation reachable := (reachable marshal).
Notation server := (server marshal).

Lemma ended_ok s : reachable s -> (np s = NEnd \/ sp s = SEnd -> cancelled s = true).
Proof.
  revert s. apply (invariant marshal (fun s => np s = NEnd \/ sp s = SEnd -> cancelled s = true)).
  - intros [X|X]; discriminate X.
  - intros s s' _ A Hst. destruct Hst as [s1 _ H|s1 _ H]; destruct H; cbn; try exact A; try (by intros _); intros [X|X]; try discriminate X; apply A; auto.
Qed.
(** Every connection accepted is added, or is about to be. *)
Lemma added_ok s : reachable s -> forall c, c < next s -> OAdd c ∈ log s \/ sp s = SAdd c.
Proof.
  revert s. apply (invariant marshal (fun s => forall c, c < next s -> OAdd c ∈ log s \/ sp s = SAdd c)).
  - intros c H. cbn in H. lia.
  - intros s s' _ A Hst. destruct Hst as [s1 _ H|s1 _ H]; destruct H; cbn -[elements]; try exact A; intros k Hk;
      try (destruct (A k Hk) as [X|X]; [left; rewrite ?elem_snoc; auto|]; try (right; exact X); try congruence).
    + rewrite H in X. injection X as ->. left. apply elem_snoc. by right.
    + destruct (decide (k = next s)) as [->|]; [by right|]. destruct (A k) as [X|X]; [lia|by left|congruence].
Qed.
Lemma no_attempts c l : attempts c l = [] -> ~ has_failed c l.
Proof.
  intros A (line & n & I). apply elem_of_list_split in I as (a & b & ->). rewrite attempts_app in A. apply app_eq_nil in A as [_ A].
  rewrite attempts_write in A. discriminate A.
Qed.
Lemma adding_new s c : reachable s -> sp s = SAdd c -> ~ has_failed c (log s).
Proof.
  intros Hr E. destruct (clients_ok marshal s Hr) as (A1 & _ & _ & A4 & _). apply no_attempts, A4. intros X. apply (proj2 (A1 c X)). cbn. by rewrite E.
Qed.
(** After a failed write the goroutines that remove the client and close its
    connection are to come, or have run. *)
Lemma failing_ok s : reachable s -> forall c, has_failed c (log s) -> (c ∈ removers s \/ c ∉ clients s) /\ (c ∈ closers s \/ OHangup c ∈ log s).
Proof.
  revert s. apply (invariant marshal (fun s => forall c, has_failed c (log s) -> (c ∈ removers s \/ c ∉ clients s) /\ (c ∈ closers s \/ OHangup c ∈ log s))).
  - intros c (line & n & X). inversion X.
  - intros s s' Hr A Hst.
    assert (K : forall o c, has_failed c (log s ++ [o]) -> (forall line n, o <> OWrite c line (Some n)) -> has_failed c (log s)).
    { intros o c (line & n & X) Ho. apply elem_snoc in X as [X|X]; [by exists line, n|]. exfalso. exact (Ho _ _ (eq_sym X)). }
    destruct Hst as [s1 _ H|s1 _ H]; destruct H; cbn -[elements]; try exact A; intros k Hk.
    all: try (apply K in Hk; [|intros; discriminate]; destruct (A k Hk) as [X Y]; split; [exact X|destruct Y as [Y|Y]; [by left|right; apply elem_snoc; by left]]).
    + destruct (decide (k = c)) as [->|Hn].
      * split; left; apply elem_of_app; right; left.
      * apply K in Hk; [|intros; congruence]. destruct (A k Hk) as [X Y]. split; [destruct X as [X|X]; [left; apply elem_of_app; by left|by right]|].
        destruct Y as [Y|Y]; [left; apply elem_of_app; by left|right; apply elem_snoc; by left].
    + apply K in Hk; [|intros; discriminate]. destruct (A k Hk) as [X Y]. split; [|destruct Y as [Y|Y]; [by left|right; apply elem_snoc; by left]].
      destruct X as [X|X]; [by left|right]. assert (k <> c) by (intros ->; exact (adding_new s c Hr H Hk)). set_solver.
    + apply K in Hk; [|intros; discriminate]. destruct (A k Hk) as [X Y]. split; [|destruct Y as [Y|Y]; [by left|right; apply elem_snoc; by left]].
      destruct X as [X|X]; [|right; set_solver]. rewrite H in X. destruct (decide (k = c)) as [->|]; [right; set_solver|left].
      apply elem_of_app in X as [X|X]; apply elem_of_app; [by left|]. apply elem_of_cons in X as [X|X]; [done|by right].
    + destruct (A k Hk) as [X Y]. split; [|exact Y]. destruct X as [X|X]; [|by right]. rewrite H in X. destruct (decide (k = c)) as [->|]; [by right|left].
      apply elem_of_app in X as [X|X]; apply elem_of_app; [by left|]. apply elem_of_cons in X as [X|X]; [done|by right].
    + apply K in Hk; [|intros; discriminate]. destruct (A k Hk) as [X Y]. split; [exact X|]. destruct Y as [Y|Y]; [|right; apply elem_snoc; by left].
      rewrite H in Y. destruct (decide (k = c)) as [->|]; [right; apply elem_snoc; by right|left].
      apply elem_of_app in Y as [Y|Y]; apply elem_of_app; [by left|]. apply elem_of_cons in Y as [Y|Y]; [done|by right].
Qed.

(** ** What is left to do *)
Definition coming (s : state) : nat := size (clients s) + match sp s with SAdd _ => 1 | _ => 0 end.
Definition work (s : state) : nat :=
  match np s with NEnd | NRecv => 0 | NTest => 1 | NSend _ todo => 2 + 3 * length todo | NLock _ => 3 + 3 * coming s end
  + (4 + 3 * coming s) * length (buf s)
  + match sp s with SAdd _ => 2 | STest => 1 | _ => 0 end + length (removers s) + length (closers s).

Lemma open_state s : reachable s -> cancelled s = false -> cp s = CWait /\ closed s = false /\ lclosed s = false /\ np s <> NEnd /\ sp s <> SEnd /\ crashed s = false.
Proof.
  intros Hr Hc. destruct (close_ok marshal s Hr) as (A0 & A). destruct (cp s); [|destruct A as [A _]; congruence..]. destruct A as (A1 & A2 & _).
  split; [done|]. split; [done|]. split; [done|]. pose proof (ended_ok s Hr) as E.
  split; [intros X; specialize (E (or_introl X)); congruence|]. split; [intros X; specialize (E (or_intror X)); congruence|].
  destruct (crashed s); [|done]. specialize (A0 eq_refl). congruence.
Qed.
Lemma work_decreases s s' : reachable s -> cancelled s = false -> server s s' -> work s' < work s /\ cancelled s' = false.
Proof.
  intros Hr Hc H. destruct (open_state s Hr Hc) as (O1 & O2 & O3 & O4 & O5 & _). destruct H; try congruence; (split; [|exact Hc]); unfold work, coming;
    cbn [log cp np sp buf clients removers closers cancelled closed lclosed crashed add_log set_np set_buf set_tasks set_clients set_next set_sp set_cp set_closed set_lclosed set_cancelled set_crashed];
    repeat match goal with
    | H : np s = _ |- _ => rewrite H in *; clear H
    | H : sp s = _ |- _ => rewrite H in *; clear H
    | H : buf s = _ |- _ => rewrite H in *; clear H
    | H : removers s = _ |- _ => rewrite H in *; clear H
    | H : closers s = _ |- _ => rewrite H in *; clear H
    end; rewrite ?app_length; cbn [length]; rewrite ?length_elements; try nia.
  - assert (size ({[c]} ∪ clients s) <= 1 + size (clients s)).
    { rewrite size_union_alt, size_singleton. pose proof (subseteq_size (clients s ∖ {[c]}) (clients s)). set_solver by lia. }
    destruct (np s); nia.
  - assert (size (clients s ∖ {[c]}) <= size (clients s)) by (apply subseteq_size; set_solver).
    destruct (np s); nia.
Qed.

Lemma moves s : reachable s -> cancelled s = false ->
  (exists s', server s s') \/ np s = NRecv /\ buf s = [] /\ sp s = SAccept /\ removers s = [] /\ closers s = [].
Proof.
  intros Hr Hc. destruct (open_state s Hr Hc) as (O1 & O2 & O3 & O4 & O5 & _).
  destruct (np s) as [| |d|line todo|] eqn:En; [| | | |done].
  { left. eexists. apply n_continue; assumption. }
  2:{ left. eexists. apply (n_lock marshal s d); assumption. }
  2:{ left. destruct todo as [|c todo]; [eexists; eapply n_unlock; eassumption|].
      eexists. apply (n_fail marshal s line [] c todo 0); [exact En|lia|reflexivity]. }
  destruct (buf s) as [|e r] eqn:Eb; [|left; destruct (marshal e) eqn:Em; eexists; [eapply n_event|eapply n_bad]; eassumption].
  assert (Mf : mutex_free s) by (unfold mutex_free; by rewrite En).
  destruct (sp s) as [| |c|] eqn:Es; [left; eexists; apply s_continue; assumption| |left; eexists; eapply s_add; eassumption|done].
  destruct (removers s) as [|c r] eqn:Er.
  - destruct (closers s) as [|c r] eqn:Ek; [right; done|]. left. eexists. apply (x_hangup marshal s [] c r). exact Ek.
  - left. destruct (decide (c ∈ clients s)) as [Hi|Hi]; eexists; [apply (r_remove marshal s [] c r)|apply (r_absent marshal s [] c r)]; assumption.
Qed.
End CatchUp.
