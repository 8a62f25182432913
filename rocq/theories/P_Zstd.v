(** C47: closing a compressed file. *)
From stdpp Require Import base list relations.
From Coq Require Import ZArith Lia.
From Verif Require Import GoBase Zstd.

(** The bytes of the writes that returned nil. *)
Definition written (l : list seen) : bytes :=
  concat (omap (fun x => match x with SWrite b None => Some b | _ => None end) l).

Lemma written_snoc l x : written (l ++ [x]) = written l ++ match x with SWrite b None => b | _ => [] end.
Proof.
  unfold written. rewrite omap_app, concat_app. f_equal. destruct x as [b [e|]|e]; cbn; rewrite ?app_nil_r; reflexivity.
Qed.

Definition hung (q : proc) : Prop := q = HungUp false \/ q = Finished false.
Definition zinv (s : zst) : Prop :=
  accepted s = input s ++ pipe s
  /\ (exists r, input s = file s ++ r)
  /\ (p s = Exited true \/ p s = HungUp true \/ p s = Finished true -> pipe s = [] /\ wclosed s = true /\ file s = input s)
  /\ (hung (p s) \/ match u s with
                    | Writing b rest => exists d, b = d ++ rest /\ accepted s = written (zlog s) ++ d
                    | _ => accepted s = written (zlog s) end)
  /\ match u s with Writing _ _ => wclosed s = false | Waiting => wclosed s = true | Idle => True end
  /\ ((exists e, SClose e ∈ zlog s) -> wclosed s = true)
  /\ (SClose None ∈ zlog s -> exists ok, p s = Finished ok).

Lemma close_snoc l e b err : SClose e ∈ l ++ [SWrite b err] -> SClose e ∈ l.
Proof. intros H. apply elem_of_app in H as [H|H]; [exact H|]. apply elem_of_list_singleton in H. discriminate H. Qed.

Lemma zinv_ok s : zreach s -> zinv s.
Proof.
  apply (rtc_ind_r (R := zstep) zinv new_writer).
  - split; [reflexivity|]. split; [exists []; reflexivity|]. split; [intros [X|[X|X]]; discriminate X|].
    split; [right; reflexivity|]. split; [exact I|]. split; [intros (e & X); inversion X | intros X; inversion X].
  - clear s. intros s s' _ Hst (A1 & A2 & A3 & A4 & A5 & A6 & A7).
    destruct Hst as [s' H|s' H]; destruct H; unfold zinv; cbn [u p pipe wclosed input file accepted zlog].
    + (* w_start *) split; [exact A1|]. split; [exact A2|]. split; [exact A3|]. rewrite H in A4.
      split; [destruct A4 as [A4|A4]; [left; exact A4 | right; exists []; rewrite app_nil_r; split; [reflexivity | exact A4]]|].
      split; [exact H0|]. split; [exact A6 | exact A7].
    + (* w_closed *) split; [exact A1|]. split; [exact A2|]. split; [exact A3|]. rewrite H in A4.
      unfold see. rewrite written_snoc, app_nil_r. split; [exact A4|]. split; [exact I|].
      split; [intros (e & X); exact H0 | intros X; apply A7; exact (close_snoc _ _ _ _ X)].
    + (* w_part *) split; [rewrite A1, app_assoc; reflexivity|]. split; [exact A2|].
      rewrite H in A4, A5. split; [intros X; destruct (A3 X) as (_ & Y & _); congruence|].
      split; [|split; [exact A5 | split; [exact A6 | exact A7]]].
      destruct A4 as [A4|(d & -> & A4)]; [left; exact A4|]. right. exists (d ++ x). rewrite A4, !app_assoc. split; reflexivity.
    + (* w_done *) split; [exact A1|]. split; [exact A2|]. split; [exact A3|]. rewrite H in A4, A5.
      unfold see. rewrite written_snoc. split.
      { destruct A4 as [A4|(d & -> & A4)]; [left; exact A4|]. right. rewrite app_nil_r. exact A4. }
      split; [exact I|]. split; [intros (e & X); apply A6; exists e; exact (close_snoc _ _ _ _ X) | intros X; apply A7; exact (close_snoc _ _ _ _ X)].
    + (* w_epipe *) split; [exact A1|]. split; [exact A2|]. split; [exact A3|]. rewrite H in A5.
      assert (Hh : hung (p s)).
      { destruct ok; [|destruct H1 as [H1|H1]; [left | right]; exact H1]. exfalso.
        destruct A3 as (_ & Y & _); [destruct H1 as [H1|H1]; [right; left; exact H1 | right; right; exact H1]|]. congruence. }
      split; [left; exact Hh|]. split; [exact I|].
      split; [intros (e & X); apply A6; exists e; exact (close_snoc _ _ _ _ X) | intros X; apply A7; exact (close_snoc _ _ _ _ X)].
    + (* w_close_again *) split; [exact A1|]. split; [exact A2|].
      split; [intros X; destruct (A3 X) as (B1 & B2 & B3); split; [exact B1|]; split; [reflexivity | exact B3]|].
      rewrite H in A4. unfold see. rewrite written_snoc, app_nil_r. split; [exact A4|]. split; [exact I|]. split; [intros _; reflexivity|].
      intros X. apply A7. apply elem_of_app in X as [X|X]; [exact X|]. apply elem_of_list_singleton in X. discriminate X.
    + (* w_close_error *) split; [exact A1|]. split; [exact A2|].
      split; [intros X; destruct (A3 X) as (B1 & B2 & B3); split; [exact B1|]; split; [reflexivity | exact B3]|].
      rewrite H in A4. unfold see. rewrite written_snoc, app_nil_r. split; [exact A4|]. split; [exact I|]. split; [intros _; reflexivity|].
      intros X. apply A7. apply elem_of_app in X as [X|X]; [exact X|]. apply elem_of_list_singleton in X. discriminate X.
    + (* w_close *) split; [exact A1|]. split; [exact A2|].
      split; [intros X; destruct (A3 X) as (B1 & B2 & B3); split; [exact B1|]; split; [reflexivity | exact B3]|].
      rewrite H in A4. split; [exact A4|]. split; [reflexivity|]. split; [intros _; reflexivity | exact A7].
    + (* w_wait *) split; [exact A1|]. split; [exact A2|]. split; [exact A3|]. rewrite H in A4, A5.
      unfold see. rewrite written_snoc, app_nil_r. split; [exact A4|]. split; [exact I|]. split; [intros _; exact A5 | intros _; exists ok; exact H0].
    + (* z_read *) split; [rewrite A1, H0, app_assoc; reflexivity|].
      split; [destruct A2 as (r & A2); exists (r ++ x); rewrite A2, app_assoc; reflexivity|].
      split; [intros [X|[X|X]]; discriminate X|].
      split; [destruct A4 as [[X|X]|A4]; [congruence | congruence | right; exact A4]|].
      split; [exact A5|]. split; [exact A6 | intros X; destruct (A7 X); congruence].
    + (* z_flush *) split; [exact A1|]. split; [exists y; rewrite H0, app_assoc; reflexivity|].
      split; [intros [X|[X|X]]; discriminate X|].
      split; [destruct A4 as [[X|X]|A4]; [congruence | congruence | right; exact A4]|].
      split; [exact A5|]. split; [exact A6 | intros X; destruct (A7 X); congruence].
    + (* z_exit *) split; [exact A1|]. split; [exact A2|]. split; [intros _; split; [exact H0|]; split; assumption|].
      split; [destruct A4 as [[X|X]|A4]; [congruence | congruence | right; exact A4]|].
      split; [exact A5|]. split; [exact A6 | intros X; destruct (A7 X); congruence].
    + (* z_fail *) split; [exact A1|]. split; [exact A2|]. split; [intros [X|[X|X]]; discriminate X|].
      split; [destruct A4 as [[X|X]|A4]; [congruence | congruence | right; exact A4]|].
      split; [exact A5|]. split; [exact A6 | intros X; destruct (A7 X); congruence].
    + (* z_hangup *) split; [exact A1|]. split; [exact A2|].
      split; [intros X; apply A3; left; destruct X as [X|[X|X]]; [discriminate X | injection X as ->; exact H | discriminate X]|].
      split; [destruct A4 as [[X|X]|A4]; [congruence | congruence | right; exact A4]|].
      split; [exact A5|]. split; [exact A6 | intros X; destruct (A7 X); congruence].
    + (* z_done *) split; [exact A1|]. split; [exact A2|].
      split; [intros X; apply A3; right; left; destruct X as [X|[X|X]]; [discriminate X | discriminate X | injection X as ->; exact H]|].
      split; [destruct A4 as [[X|X]|A4]; [left; right; rewrite H in X; injection X as ->; reflexivity | congruence | right; exact A4]|].
      split; [exact A5|]. split; [exact A6 | intros X; destruct (A7 X); congruence].
Qed.

(** When Close has returned nil, the process has exited; if it exited
    successfully the file holds exactly the bytes of the writes that returned
    nil, in order. *)
Theorem C47_close s :
  zreach s -> SClose None ∈ zlog s -> exists ok, p s = Finished ok /\ (ok = true -> file s = written (zlog s)).
Proof.
  intros Hr Hc. destruct (zinv_ok s Hr) as (A1 & A2 & A3 & A4 & A5 & A6 & A7).
  destruct (A7 Hc) as (ok & Hk). exists ok. split; [exact Hk|]. intros ->.
  destruct A3 as (B1 & B2 & B3); [right; right; exact Hk|].
  destruct A4 as [[X|X]|A4]; [congruence | congruence|].
  assert (E : file s = accepted s) by (rewrite A1, B1, app_nil_r; exact B3).
  destruct (u s); try (rewrite E; exact A4). congruence.
Qed.
Print Assumptions C47_close.

(** What the file holds is at any time a prefix of the bytes accepted. *)
Theorem C47_prefix s : zreach s -> file s `prefix_of` accepted s.
Proof.
  intros Hr. destruct (zinv_ok s Hr) as (A1 & (r & A2) & _). rewrite A1, A2. exists (r ++ pipe s). rewrite app_assoc. reflexivity.
Qed.
Print Assumptions C47_prefix.

(** After a Close, every further call returns an error immediately and does
    nothing else; in particular a second Close neither blocks nor returns nil. *)
Theorem C47_after_close s e :
  zreach s -> SClose e ∈ zlog s -> u s = Idle ->
  (exists s', zuser s s' /\ zlog s' = zlog s ++ [SClose (Some ErrIO)])
  /\ forall s', zuser s s' ->
       u s' = Idle /\ accepted s' = accepted s
       /\ (zlog s' = zlog s ++ [SClose (Some ErrIO)] \/ exists b, zlog s' = zlog s ++ [SWrite b (Some ErrIO)]).
Proof.
  intros Hr Hc Hi. destruct (zinv_ok s Hr) as (_ & _ & _ & _ & _ & A6 & _).
  assert (Hw : wclosed s = true) by (apply A6; exists e; exact Hc). split.
  - eexists. split; [apply w_close_again; assumption | reflexivity].
  - intros s' H. destruct H; try congruence; (split; [reflexivity|]; split; [reflexivity|]).
    + right. exists b. reflexivity.
    + left. reflexivity.
Qed.
Print Assumptions C47_after_close.

(** While Close waits, the process and its goroutine can make at most a fixed
    number of steps, and until they are done they can always make one; then
    Close returns. *)
Definition rank (q : proc) : nat := match q with Running => 3 | Exited _ => 2 | HungUp _ => 1 | Finished _ => 0 end.
Definition zmeasure (s : zst) : nat := 2 * length (pipe s) + (length (input s) - length (file s)) + rank (p s).
Inductive zruns : nat -> zst -> zst -> Prop :=
| zr_0 s : zruns 0 s s
| zr_S n s s' s'' : zruns n s s' -> zproc s' s'' -> zruns (S n) s s''.

Lemma nonempty_length (x : bytes) : x <> [] -> 0 < length x.
Proof. destruct x; [contradiction | cbn; lia]. Qed.

Lemma zproc_decreases s s' : zinv s -> zproc s s' -> zmeasure s' < zmeasure s /\ u s' = u s.
Proof.
  intros (_ & (r & A2) & _) H. assert (L : length (file s) <= length (input s)) by (rewrite A2, app_length; lia).
  destruct H; (split; [|reflexivity]); unfold zmeasure; cbn [pipe input file p]; rewrite H; cbn [rank].
  - apply nonempty_length in H1. rewrite H0, !app_length. lia.
  - apply nonempty_length in H1. assert (length (input s) = length (file s) + (length x + length y)) by (rewrite H0 at 1; rewrite !app_length; lia).
    rewrite app_length. lia.
  - lia.
  - lia.
  - lia.
  - lia.
Qed.

Theorem C47_close_returns s :
  zreach s -> u s = Waiting ->
  exists bound, forall n s', zruns n s s' ->
    n <= bound /\ ((exists s'', zproc s' s'') \/ exists s'', zuser s' s'' /\ u s'' = Idle /\ zlog s'' = zlog s' ++ [SClose None]).
Proof.
  intros Hr Hw. exists (zmeasure s). intros n s' H.
  assert (G : n + zmeasure s' <= zmeasure s /\ u s' = Waiting /\ zreach s').
  { induction H as [s|n s s' s'' H IH Hs]; [split; [lia|]; split; assumption|].
    destruct (IH Hr Hw) as (B1 & B2 & B3). destruct (zproc_decreases s' s'' (zinv_ok _ B3) Hs) as (C1 & C2).
    split; [lia|]. split; [congruence|]. eapply rtc_r; [exact B3|]. apply zs_proc. exact Hs. }
  destruct G as (G1 & G2 & G3). split; [lia|].
  destruct (zinv_ok s' G3) as (A1 & (r & A2) & A3 & A4 & A5 & _). rewrite G2 in A5.
  destruct (p s') as [|ok|ok|ok] eqn:Ep.
  - left. destruct (pipe s') as [|x y] eqn:Epi.
    + destruct r as [|x r].
      * rewrite app_nil_r in A2. eexists. apply z_exit; congruence.
      * eexists. apply (z_flush s' [x] r); [exact Ep | exact A2 | discriminate].
    + eexists. apply (z_read s' [x] y); [exact Ep | exact Epi | discriminate].
  - left. eexists. eapply z_hangup. exact Ep.
  - left. eexists. eapply z_done. exact Ep.
  - right. eexists. split; [eapply w_wait; [exact G2 | exact Ep]|]. split; reflexivity.
Qed.
Print Assumptions C47_close_returns.

(** Unless the process fails, it ends well: from a Close on, while nothing fails there
    is a next step of the process or its goroutine until the file holds the bytes of
    the writes that returned nil, and then Close returns. *)
Definition zgood (s s' : zst) : Prop := zproc s s' /\ p s' <> Exited false.
Theorem C47_complete s : zreach s -> u s = Waiting -> p s = Running ->
  forall s', rtc zgood s s' -> (exists s'', zgood s' s'') \/
    (p s' = Finished true /\ file s' = written (zlog s') /\ exists s'', zuser s' s'' /\ u s'' = Idle /\ zlog s'' = zlog s' ++ [SClose None]).
Proof.
  intros Hr Hw Hp s' H.
  assert (G : zreach s' /\ u s' = Waiting /\ (p s' = Running \/ p s' = Exited true \/ p s' = HungUp true \/ p s' = Finished true)).
  { revert s' H. apply (rtc_ind_r (R := zgood) (fun s' => zreach s' /\ u s' = Waiting /\ (p s' = Running \/ p s' = Exited true \/ p s' = HungUp true \/ p s' = Finished true)) s).
    - split; [exact Hr|]. split; [exact Hw|left; exact Hp].
    - intros a b _ [Hs Hg] (B1 & B2 & B3). split; [eapply rtc_r; [exact B1|apply zs_proc; exact Hs]|].
      destruct Hs; cbn [u p] in *; (split; [exact B2|]); try (left; reflexivity); try (right; left; reflexivity); try congruence.
      + destruct ok; [right; right; left; reflexivity|]. destruct B3 as [B3|[B3|[B3|B3]]]; congruence.
      + destruct ok; [right; right; right; reflexivity|]. destruct B3 as [B3|[B3|[B3|B3]]]; congruence. }
  destruct G as (G1 & G2 & G3). destruct (zinv_ok s' G1) as (A1 & (r & A2) & A3 & A4 & A5 & _). rewrite G2 in A4, A5.
  destruct G3 as [G3|[G3|[G3|G3]]].
  - left. destruct (pipe s') as [|x y] eqn:Epi.
    + destruct r as [|x r].
      * rewrite app_nil_r in A2. eexists. split; [apply z_exit; congruence|discriminate].
      * eexists. split; [apply (z_flush s' [x] r); [exact G3|exact A2|discriminate]|discriminate].
    + eexists. split; [apply (z_read s' [x] y); [exact G3|exact Epi|discriminate]|discriminate].
  - left. eexists. split; [apply (z_hangup _ true G3)|discriminate].
  - left. eexists. split; [apply (z_done _ true G3)|discriminate].
  - right. destruct (A3 (or_intror (or_intror G3))) as (B1 & _ & B3). split; [exact G3|]. split.
    + destruct A4 as [[X|X]|A4]; [congruence|congruence|]. rewrite <- A4, A1, B1, app_nil_r. exact B3.
    + eexists. split; [eapply w_wait; [exact G2|exact G3]|]. split; reflexivity.
Qed.
Print Assumptions C47_complete.

(** Writes run at most the capacity of a pipe, 65536 bytes, ahead of the process. *)
Theorem C47_ahead s : zreach s -> (Z.of_nat (length (accepted s)) <= Z.of_nat (length (input s)) + 65536)%Z.
Proof.
  intros Hr. assert (L : length (pipe s) <= PIPE_CAP).
  { unfold zreach in Hr. revert s Hr. apply (rtc_ind_r (R := zstep) (fun s => length (pipe s) <= PIPE_CAP) new_writer); [cbn; lia|].
    intros a b _ Hs IH. destruct Hs as [b H|b H]; destruct H; cbn [pipe]; try exact IH.
    - rewrite app_length. exact H1.
    - rewrite H0, app_length in IH. lia. }
  destruct (zinv_ok s Hr) as (A1 & _). rewrite A1, app_length. unfold PIPE_CAP in L. lia.
Qed.
Print Assumptions C47_ahead.

(** A Write fails only after a Close, or when the process has failed and its end of
    the pipe is closed. *)
Definition winv (s : zst) : Prop :=
  (wclosed s = true -> u s = Waiting \/ exists e, SClose e ∈ zlog s)
  /\ forall l1 b e l2, zlog s = l1 ++ SWrite b (Some e) :: l2 -> (exists e', SClose e' ∈ l1) \/ hung (p s).
Lemma snoc_split {A} (l l1 l2 : list A) x y : l ++ [x] = l1 ++ y :: l2 -> (l1 = l /\ y = x /\ l2 = []) \/ exists l3, l2 = l3 ++ [x] /\ l = l1 ++ y :: l3.
Proof.
  intros E. destruct l2 as [|z l2 _] using rev_ind; [apply app_inj_tail in E as [-> ->]; auto|]. right. exists l2.
  change (y :: l2 ++ [z]) with ((y :: l2) ++ [z]) in E. rewrite app_assoc in E. apply app_inj_tail in E as [-> ->]. auto.
Qed.
Lemma winv_ok s : zreach s -> winv s.
Proof.
  intros Hr. unfold zreach in Hr. revert s Hr. apply (rtc_ind_r (R := zstep) winv new_writer).
  - split; [discriminate|]. intros l1 b e l2 E. destruct l1; discriminate E.
  - intros s s' Hr Hst [B1 B2]. destruct (zinv_ok s Hr) as (_ & _ & A3 & _ & A5 & A6 & A7).
    assert (Old : forall x l1 b e l2, zlog s ++ [x] = l1 ++ SWrite b (Some e) :: l2 -> x = SWrite b (Some e) /\ l1 = zlog s \/ (exists e', SClose e' ∈ l1) \/ hung (p s)).
    { intros x l1 b e l2 E. apply snoc_split in E as [(-> & <- & _)|(l3 & _ & E)]; [left; auto|right; exact (B2 _ _ _ _ E)]. }
    assert (Keep : (wclosed s = true -> exists e, SClose e ∈ zlog s) -> forall x, wclosed s = true -> exists e, SClose e ∈ zlog s ++ [x]).
    { intros X x W. destruct (X W) as [e I]. exists e. apply elem_of_app. left. exact I. }
    destruct Hst as [s' H|s' H]; destruct H; unfold winv, see in *; cbn [u p pipe wclosed input file accepted zlog].
    + split; [congruence|exact B2].
    + split; [intros W; right; apply Keep; [|exact W]; intros _; destruct (B1 W); [congruence|assumption]|].
      intros l1 b' e l2 E. apply Old in E as [[_ ->]|E]; [left|exact E]. destruct (B1 H0); [congruence|assumption].
    + rewrite H in A5. split; [congruence|exact B2].
    + rewrite H in A5. split; [congruence|]. intros l1 b' e l2 E. apply Old in E as [[E _]|E]; [discriminate E|exact E].
    + rewrite H in A5. split; [congruence|]. intros l1 b' e l2 E. right. destruct ok; [|destruct H1 as [X|X]; [left|right]; exact X].
      exfalso. destruct A3 as (_ & Y & _); [destruct H1 as [H1|H1]; [right; left; exact H1|right; right; exact H1]|]. congruence.
    + split; [intros _; right; exists (Some ErrIO); apply elem_of_app; right; left|]. intros l1 b' e l2 E. apply Old in E as [[E _]|E]; [discriminate E|exact E].
    + split; [intros _; right; exists (Some ErrIO); apply elem_of_app; right; left|]. intros l1 b' e l2 E. apply Old in E as [[E _]|E]; [discriminate E|exact E].
    + split; [left; reflexivity|exact B2].
    + split; [intros _; right; exists None; apply elem_of_app; right; left|]. intros l1 b' e l2 E. apply Old in E as [[E _]|E]; [discriminate E|exact E].
    + split; [exact B1|]. intros l1 b e l2 E. destruct (B2 _ _ _ _ E) as [X|[X|X]]; [left; exact X|congruence|congruence].
    + split; [exact B1|]. intros l1 b e l2 E. destruct (B2 _ _ _ _ E) as [X|[X|X]]; [left; exact X|congruence|congruence].
    + split; [exact B1|]. intros l1 b e l2 E. destruct (B2 _ _ _ _ E) as [X|[X|X]]; [left; exact X|congruence|congruence].
    + split; [exact B1|]. intros l1 b e l2 E. destruct (B2 _ _ _ _ E) as [X|[X|X]]; [left; exact X|congruence|congruence].
    + split; [exact B1|]. intros l1 b e l2 E. destruct (B2 _ _ _ _ E) as [X|[X|X]]; [left; exact X|congruence|congruence].
    + split; [exact B1|]. intros l1 b e l2 E. destruct (B2 _ _ _ _ E) as [X|[X|X]]; [left; exact X| |congruence].
      right. right. rewrite H in X. injection X as ->. reflexivity.
Qed.
Theorem C47_write_errors s l1 b e l2 : zreach s -> zlog s = l1 ++ SWrite b (Some e) :: l2 ->
  (exists e', SClose e' ∈ l1) \/ p s = HungUp false \/ p s = Finished false.
Proof. intros Hr. apply (winv_ok s Hr). Qed.
Print Assumptions C47_write_errors.

(** Until there is a Close, a Write of anything can begin. *)
Theorem C47_open s : zreach s -> u s = Idle -> ~ (exists e, SClose e ∈ zlog s) ->
  forall b, exists s', zuser s s' /\ u s' = Writing b b /\ zlog s' = zlog s.
Proof.
  intros Hr Hi Hn b. assert (W : wclosed s = false).
  { destruct (wclosed s) eqn:E; [|reflexivity]. destruct (proj1 (winv_ok s Hr) E) as [X|X]; [congruence|contradiction]. }
  eexists. split; [apply (w_start s b Hi W)|]. split; reflexivity.
Qed.
Print Assumptions C47_open.

(** A Write returns: there are at most a fixed number of steps while it goes on, and
    until it has returned there always is one.  It returns nil unless the process has
    failed. *)
Inductive zwrites : nat -> zst -> zst -> Prop :=
| zw_0 s : zwrites 0 s s
| zw_S n s s' s'' b rest : zwrites n s s' -> u s' = Writing b rest -> zstep s' s'' -> zwrites (S n) s s''.
Definition wmeasure (s : zst) : nat :=
  match u s with Writing _ rest => 1 + 3 * length rest | _ => 0 end + zmeasure s.
Lemma zwrite_decreases s s' b rest : zinv s -> u s = Writing b rest -> zstep s s' ->
  wmeasure s' < wmeasure s /\ ((exists rest', u s' = Writing b rest' /\ zlog s' = zlog s) \/
    (u s' = Idle /\ (zlog s' = zlog s ++ [SWrite b None] \/ zlog s' = zlog s ++ [SWrite b (Some ErrIO)] /\ hung (p s')))).
Proof.
  intros Hi Hu Hst. destruct Hst as [s' H|s' H].
  - destruct H; try congruence; unfold wmeasure, zmeasure; cbn [u p pipe wclosed input file accepted zlog]; rewrite H; rewrite H in Hu; injection Hu as -> <-.
    + apply nonempty_length in H0. rewrite !app_length. split; [lia|]. left. exists y. auto.
    + split; [lia|]. right. split; [reflexivity|]. left. reflexivity.
    + split; [lia|]. right. split; [reflexivity|]. right. split; [reflexivity|]. destruct Hi as (_ & _ & A3 & _ & A5 & _). rewrite H in A5.
      destruct ok; [|destruct H1 as [X|X]; [left|right]; exact X]. exfalso. destruct A3 as (_ & Y & _); [destruct H1 as [H1|H1]; [right; left; exact H1|right; right; exact H1]|]. congruence.
  - destruct (zproc_decreases s s' Hi H) as [D E]. unfold wmeasure. rewrite E, Hu. split; [lia|]. left. exists rest. split; [reflexivity|]. destruct H; reflexivity.
Qed.
Theorem C47_write_returns s b rest : zreach s -> u s = Writing b rest ->
  exists bound, forall n s', zwrites n s s' -> n <= bound /\
    ((exists rest', u s' = Writing b rest' /\ zlog s' = zlog s /\ exists s'', zstep s' s'') \/
     (u s' = Idle /\ (zlog s' = zlog s ++ [SWrite b None] \/ zlog s' = zlog s ++ [SWrite b (Some ErrIO)] /\ hung (p s')))).
Proof.
  intros Hr Hu. exists (wmeasure s). intros n s' H.
  assert (G : n + wmeasure s' <= wmeasure s /\ zreach s' /\ ((exists rest', u s' = Writing b rest' /\ zlog s' = zlog s) \/
    (u s' = Idle /\ (zlog s' = zlog s ++ [SWrite b None] \/ zlog s' = zlog s ++ [SWrite b (Some ErrIO)] /\ hung (p s'))))).
  { induction H as [s|n s s' s'' b' rest' H IH Hw Hs]; [split; [lia|]; split; [exact Hr|]; left; exists rest; auto|].
    destruct (IH Hr Hu) as (B1 & B2 & [(r & B3 & B4)|[B3 _]]); [|congruence]. rewrite B3 in Hw. injection Hw as <- <-.
    destruct (zwrite_decreases s' s'' b r (zinv_ok _ B2) B3 Hs) as (C1 & C2). split; [lia|]. split; [eapply rtc_r; [exact B2|exact Hs]|].
    rewrite B4 in C2. exact C2. }
  destruct G as (G1 & G2 & [(r & G3 & G4)|G3]); (split; [lia|]); [|right; exact G3]. left. exists r. split; [exact G3|]. split; [exact G4|].
  destruct r as [|x r]; [eexists; apply zs_user, (w_done s' b G3)|].
  destruct (p s') as [|ok|ok|ok] eqn:Ep.
  - destruct (Nat.lt_ge_cases (length (pipe s')) PIPE_CAP) as [L|L].
    + eexists. apply zs_user, (w_part s' b [x] r G3); [discriminate|cbn [length]; lia|]. rewrite Ep. intros ok. split; discriminate.
    + destruct (pipe s') as [|c q] eqn:Epi; [exfalso; unfold PIPE_CAP in L; cbn [length] in L; lia|].
      eexists. apply zs_proc, (z_read s' [c] q); [exact Ep|exact Epi|discriminate].
  - eexists. apply zs_proc. eapply z_hangup. exact Ep.
  - eexists. apply zs_user, (w_epipe s' b (x :: r) ok G3); [discriminate|left; exact Ep].
  - eexists. apply zs_user, (w_epipe s' b (x :: r) ok G3); [discriminate|right; exact Ep].
Qed.
Print Assumptions C47_write_returns.

(** A run: two writes, a Close; the process reads and writes in parts. *)
Ltac usr c := eapply rtc_l; [apply zs_user; c|]; cbn.
Ltac prc c := eapply rtc_l; [apply zs_proc; c|]; cbn.
Definition good_state : zst :=
  mkz Idle (Finished true) [] true [x41; x42; x43] [x41; x42; x43] [x41; x42; x43] [SWrite [x41; x42] None; SWrite [x43] None; SClose None].
Example C47_good_run : zreach good_state.
Proof.
  unfold zreach, new_writer.
  usr ltac:(apply (w_start _ [x41; x42]); reflexivity).
  usr ltac:(apply (w_part _ [x41; x42] [x41] [x42]); [reflexivity | discriminate | unfold PIPE_CAP; cbn [length Zstd.pipe]; lia | intros ok; split; discriminate]).
  prc ltac:(apply (z_read _ [x41] []); [reflexivity | reflexivity | discriminate]).
  usr ltac:(apply (w_part _ [x41; x42] [x42] []); [reflexivity | discriminate | unfold PIPE_CAP; cbn [length Zstd.pipe]; lia | intros ok; split; discriminate]).
  usr ltac:(apply (w_done _ [x41; x42]); reflexivity).
  usr ltac:(apply (w_start _ [x43]); reflexivity).
  usr ltac:(apply (w_part _ [x43] [x43] []); [reflexivity | discriminate | unfold PIPE_CAP; cbn [length Zstd.pipe]; lia | intros ok; split; discriminate]).
  usr ltac:(apply (w_done _ [x43]); reflexivity).
  usr ltac:(apply w_close; reflexivity).
  prc ltac:(apply (z_read _ [x42; x43] []); [reflexivity | reflexivity | discriminate]).
  prc ltac:(apply (z_flush _ [x41; x42; x43] []); [reflexivity | reflexivity | discriminate]).
  prc ltac:(apply z_exit; reflexivity).
  prc ltac:(apply z_hangup; reflexivity).
  prc ltac:(apply z_done; reflexivity).
  usr ltac:(apply (w_wait _ true); reflexivity).
  apply rtc_refl.
Qed.
Example C47_good : written (zlog good_state) = [x41; x42; x43] /\ file good_state = written (zlog good_state).
Proof. split; reflexivity. Qed.

(** If the process fails (zstd missing, disk full, killed) Write and Close still
    return nil and the data is lost. *)
Definition lost_state : zst := mkz Idle (Finished false) [x41] true [] [] [x41] [SWrite [x41] None; SClose None].
Theorem C47_data_refuted : ~ (forall s, zreach s -> SClose None ∈ zlog s -> file s = written (zlog s)).
Proof.
  intros H. assert (R : zreach lost_state).
  { unfold zreach, new_writer.
    usr ltac:(apply (w_start _ [x41]); reflexivity).
    usr ltac:(apply (w_part _ [x41] [x41] []); [reflexivity | discriminate | unfold PIPE_CAP; cbn [length Zstd.pipe]; lia | intros ok; split; discriminate]).
    usr ltac:(apply (w_done _ [x41]); reflexivity).
    prc ltac:(apply z_fail; reflexivity).
    usr ltac:(apply w_close; reflexivity).
    prc ltac:(apply z_hangup; reflexivity).
    prc ltac:(apply z_done; reflexivity).
    usr ltac:(apply (w_wait _ false); reflexivity).
    apply rtc_refl. }
  assert (I : SClose None ∈ zlog lost_state) by (right; left). specialize (H _ R I). discriminate H.
Qed.
Print Assumptions C47_data_refuted.
(** A Write that goes on, and one that fails because the process has. *)
Example writing_run : exists s, zreach s /\ u s = Writing [x41; x42] [x42].
Proof.
  eexists. split.
  - unfold zreach, new_writer.
    usr ltac:(apply (w_start _ [x41; x42]); reflexivity).
    usr ltac:(apply (w_part _ [x41; x42] [x41] [x42]); [reflexivity | discriminate | unfold PIPE_CAP; cbn [length Zstd.pipe]; lia | intros ok; split; discriminate]).
    apply rtc_refl.
  - reflexivity.
Qed.
Example failed_write_run : exists s, zreach s /\ zlog s = [SWrite [x41] (Some ErrIO)] /\ p s = HungUp false.
Proof.
  eexists. split.
  - unfold zreach, new_writer.
    prc ltac:(apply z_fail; reflexivity).
    prc ltac:(apply z_hangup; reflexivity).
    usr ltac:(apply (w_start _ [x41]); reflexivity).
    usr ltac:(apply (w_epipe _ [x41] [x41] false); [reflexivity | discriminate | left; reflexivity]).
    apply rtc_refl.
  - split; reflexivity.
Qed.
