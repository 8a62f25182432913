(** C50: reading a compressed file. *)
From stdpp Require Import base list relations.
From Coq Require Import ZArith Lia.
From Verif Require Import GoBase Zstd ZstdReader P_Zstd.

(** The bytes the user has got out of the reader. *)
Definition received (l : list rseen) : bytes :=
  concat (omap (fun x => match x with RRead b => Some b | _ => None end) l).

Lemma received_snoc l x : received (l ++ [x]) = received l ++ match x with RRead b => b | _ => [] end.
Proof.
  unfold received. rewrite omap_app, concat_app. f_equal. destruct x as [b| | |]; cbn; rewrite ?app_nil_r; reflexivity.
Qed.

Definition rinv (f : zfile) (s : rst) : Prop :=
  rp_out s = received (rp_log s) ++ rp_pipe s
  /\ (exists r, content f = rp_out s ++ r)
  /\ (rp_proc s = PExited true \/ rp_proc s = PClosed -> rp_out s = content f /\ intact f = true)
  /\ (REof ∈ rp_log s -> rp_proc s = PClosed /\ rp_pipe s = [])
  /\ (RClose ∈ rp_log s \/ RError ∈ rp_log s -> rp_open s = false).

Ltac snoc H := apply elem_of_app in H as [H|H]; [|apply elem_of_list_singleton in H; try discriminate H].

Lemma rinv_ok f s : rreach f s -> rinv f s.
Proof.
  apply (rtc_ind_r (R := rstep f) (rinv f) new_reader).
  - split; [reflexivity|]. split; [exists (content f); reflexivity|]. split; [intros [X|X]; discriminate X|].
    split; [intros X; inversion X | intros [X|X]; inversion X].
  - clear s. intros s s' _ Hst (A1 & (r & A2) & A3 & A4 & A5).
    destruct Hst as [s' H|s' H]; destruct H; unfold rinv; cbn [rp_proc rp_out rp_pipe rp_open rp_log].
    + (* u_read *) split; [rewrite received_snoc, A1, H1, app_assoc; reflexivity|]. split; [exists r; exact A2|].
      split; [exact A3|]. split; [intros X; snoc X; destruct (A4 X) as (B & C); split; [exact B|]; rewrite H1 in C; destruct x; [contradiction | discriminate C]|].
      intros X. rewrite <- H0. apply A5. destruct X as [X|X]; snoc X; [left | right]; exact X.
    + (* u_eof *) split; [rewrite received_snoc, A1, H0, !app_nil_r; reflexivity|]. split; [exists r; exact A2|].
      split; [exact A3|]. split; [intros _; split; [exact H1 | reflexivity]|].
      intros X. rewrite <- H. apply A5. destruct X as [X|X]; snoc X; [left | right]; exact X.
    + (* u_error *) split; [rewrite received_snoc, app_nil_r; exact A1|]. split; [exists r; exact A2|].
      split; [exact A3|]. split; [intros X; snoc X; exact (A4 X) | reflexivity].
    + (* u_close *) split; [rewrite received_snoc, app_nil_r; exact A1|]. split; [exists r; exact A2|].
      split; [exact A3|]. split; [intros X; snoc X; exact (A4 X) | reflexivity].
    + (* p_write *) split; [rewrite A1, app_assoc; reflexivity|]. split; [exists y; rewrite H0, app_assoc; reflexivity|].
      split; [intros [X|X]; discriminate X|]. split; [intros X; destruct (A4 X) as (B & _); congruence | exact A5].
    + (* p_sigpipe *) split; [exact A1|]. split; [exists r; exact A2|]. split; [intros [X|X]; discriminate X|].
      split; [intros X; destruct (A4 X) as (B & _); congruence | exact A5].
    + (* p_end *) split; [exact A1|]. split; [exists r; exact A2|].
      split; [intros [X|X]; [injection X as X; split; [exact H0 | exact X] | discriminate X]|].
      split; [intros X; destruct (A4 X) as (B & _); congruence | exact A5].
    + (* p_fail *) split; [exact A1|]. split; [exists r; exact A2|]. split; [intros [X|X]; discriminate X|].
      split; [intros X; destruct (A4 X) as (B & _); congruence | exact A5].
    + (* p_must *) split; [exact A1|]. split; [exists r; exact A2|]. split; [intros [X|X]; discriminate X|].
      split; [intros X; destruct (A4 X) as (B & _); congruence | exact A5].
    + (* p_close *) split; [exact A1|]. split; [exists r; exact A2|]. split; [intros _; apply A3; left; exact H|].
      split; [intros X; destruct (A4 X) as (B & _); congruence | exact A5].
Qed.

(** What has been read is always the beginning of the content, in order; nothing
    is read twice, and nothing is skipped. *)
Theorem C50_reads_prefix f s : rreach f s -> exists r, content f = received (rp_log s) ++ r.
Proof.
  intros Hr. destruct (rinv_ok f s Hr) as (A1 & (r & A2) & _). exists (rp_pipe s ++ r). rewrite A2, A1, app_assoc. reflexivity.
Qed.
Print Assumptions C50_reads_prefix.

(** zstd writes at most the capacity of a pipe, 65536 bytes, ahead of what has been
    read. *)
Theorem C50_ahead f s : rreach f s -> (Z.of_nat (length (rp_out s)) <= Z.of_nat (length (received (rp_log s))) + 65536)%Z.
Proof.
  intros Hr. assert (L : length (rp_pipe s) <= PIPE_CAP).
  { unfold rreach in Hr. revert s Hr. apply (rtc_ind_r (R := rstep f) (fun s => length (rp_pipe s) <= PIPE_CAP) new_reader); [cbn; lia|].
    intros a b _ Hs IH. destruct Hs as [b H|b H]; destruct H; cbn [rp_pipe]; try exact IH.
    - rewrite H1, app_length in IH. lia.
    - rewrite <- H0. exact IH.
    - rewrite app_length. assumption. }
  destruct (rinv_ok f s Hr) as (A1 & _). rewrite A1, app_length. unfold PIPE_CAP in L. lia.
Qed.
Print Assumptions C50_ahead.

(** The end of the stream is only reported when everything has been read, of an
    intact file: damage does not look like a shorter file. *)
Theorem C50_eof_means_all f s :
  rreach f s -> REof ∈ rp_log s -> received (rp_log s) = content f /\ intact f = true.
Proof.
  intros Hr He. destruct (rinv_ok f s Hr) as (A1 & _ & A3 & A4 & _). destruct (A4 He) as (B & C).
  destruct (A3 (or_intror B)) as (D & E). split; [|exact E]. rewrite <- D, A1, C, app_nil_r. reflexivity.
Qed.
Print Assumptions C50_eof_means_all.

(** Reading the file of a closed writer whose process ended well, up to the end of
    the stream, gives the bytes that were written. *)
Theorem C50_round_trip w s :
  zreach w -> SClose None ∈ zlog w -> p w = Finished true ->
  rreach (mkzf (file w) true) s -> REof ∈ rp_log s -> received (rp_log s) = written (zlog w).
Proof.
  intros Hw Hc Hp Hr He. destruct (C50_eof_means_all _ _ Hr He) as (A & _). rewrite A. cbn.
  destruct (C47_close w Hw Hc) as (ok & Hk & X). apply X. congruence.
Qed.
Print Assumptions C50_round_trip.

(** A user who keeps reading an intact file reads all of it: while nothing fails
    and the reader stays open, Reads and the steps of the other side can only
    happen boundedly often, and some step is possible until the end of the stream
    has been reported. *)
Definition rgood (f : zfile) (s s' : rst) : Prop :=
  rstep f s s' /\ rp_open s' = true /\ rp_proc s' <> PExited false /\ ~ REof ∈ rp_log s.
Inductive rruns (f : zfile) : nat -> rst -> rst -> Prop :=
| rr_0 s : rruns f 0 s s
| rr_S n s s' s'' : rruns f n s s' -> rgood f s' s'' -> rruns f (S n) s s''.

Definition rrank (q : rproc) : nat := match q with PRunning => 2 | PExited _ => 1 | _ => 0 end.
Definition rmeasure (f : zfile) (s : rst) : nat :=
  2 * (length (content f) - length (rp_out s)) + length (rp_pipe s) + rrank (rp_proc s).

Lemma rgood_decreases f s s' :
  rinv f s -> rgood f s s' -> rp_proc s <> PExited false /\ rp_proc s <> PDead ->
  rp_proc s' <> PDead /\ (rmeasure f s' < rmeasure f s \/ rmeasure f s' <= rmeasure f s /\ REof ∈ rp_log s').
Proof.
  intros (_ & (r & A2) & _) (Hst & Ho & Hp & He) (P1 & P2).
  assert (L : length (rp_out s) <= length (content f)) by (rewrite A2, app_length; lia).
  destruct Hst as [s' H|s' H]; destruct H; cbn [rp_open rp_proc] in Ho, Hp; try congruence; unfold rmeasure; cbn [rp_proc rp_out rp_pipe rp_log].
  - split; [exact P2|]. left. apply nonempty_length in H2. rewrite H1, app_length. lia.
  - split; [exact P2|]. right. split; [rewrite H0; lia|]. apply elem_of_app. right. left.
  - split; [discriminate|]. left. apply nonempty_length in H1. rewrite H. rewrite H0, !app_length. lia.
  - split; [discriminate|]. left. rewrite H. cbn [rrank]. lia.
  - split; [discriminate|]. left. rewrite H. cbn [rrank]. lia.
Qed.

Lemma eof_or (l : list rseen) : REof ∈ l \/ ~ REof ∈ l.
Proof.
  induction l as [|x l [IH|IH]]; [right; intros X; inversion X | left; right; exact IH|].
  destruct x; [right|left; left|right|right]; intros X; inversion X; contradiction.
Qed.

Theorem C50_all_is_read f s :
  intact f = true -> rreach f s -> rp_open s = true -> rp_proc s <> PExited false -> rp_proc s <> PDead ->
  exists bound, forall n s', rruns f n s s' ->
    n <= bound /\ (REof ∈ rp_log s' \/ exists s'', rgood f s' s'').
Proof.
  intros Hi Hr Ho P1 P2. exists (S (rmeasure f s)). intros n s' H.
  assert (G : (n + rmeasure f s' <= rmeasure f s \/ n + rmeasure f s' <= S (rmeasure f s) /\ REof ∈ rp_log s')
              /\ rp_open s' = true /\ rp_proc s' <> PExited false /\ rp_proc s' <> PDead /\ rreach f s').
  { induction H as [s|n s s' s'' H IH Hs]; [split; [left; lia|]; split; [exact Ho|]; split; [exact P1|]; split; assumption|].
    destruct (IH Hr Ho P1 P2) as (B1 & B2 & B3 & B4 & B5).
    destruct (rgood_decreases f s' s'' (rinv_ok _ _ B5) Hs (conj B3 B4)) as (C1 & C2).
    destruct Hs as (Hs & D1 & D2 & D3).
    destruct B1 as [B1|(_ & B1)]; [|contradiction].
    split; [destruct C2 as [C2|(C2 & C3)]; [left; lia | right; split; [lia | exact C3]]|].
    split; [exact D1|]. split; [exact D2|]. split; [exact C1|]. eapply rtc_r; [exact B5 | exact Hs]. }
  destruct G as (G1 & G2 & G3 & G4 & G5). split; [lia|].
  destruct (eof_or (rp_log s')) as [E|E]; [left; exact E|right].
  destruct (rinv_ok _ _ G5) as (A1 & (r & A2) & A3 & _).
  destruct (rp_pipe s') as [|x y] eqn:Epi.
  - destruct (rp_proc s') as [|[|]| |] eqn:Ep; [| |congruence| |congruence].
    + destruct r as [|x r].
      * rewrite app_nil_r in A2. eexists. split; [apply rs_work, p_end; [exact Ep | congruence]|]. cbn. rewrite Hi. split; [exact G2|]. split; [discriminate | exact E].
      * eexists. split; [apply rs_work, (p_write f s' [x] r); [exact Ep | exact A2 | discriminate | exact G2 | rewrite Epi; unfold PIPE_CAP; cbn; lia]|].
        cbn. split; [exact G2|]. split; [discriminate | exact E].
    + eexists. split; [apply rs_work, p_close; exact Ep|]. cbn. split; [exact G2|]. split; [discriminate | exact E].
    + eexists. split; [apply rs_user, u_eof; assumption|]. cbn. split; [reflexivity|]. split; [congruence | exact E].
  - eexists. split; [apply rs_user, (u_read _ [x] y); [congruence | exact G2 | exact Epi | discriminate]|].
    cbn. split; [reflexivity|]. split; [congruence | exact E].
Qed.
Print Assumptions C50_all_is_read.

(** A run that reads a file to its end in two parts. *)
Ltac rusr c := eapply rtc_l; [apply rs_user; c|]; cbn.
Ltac rprc c := eapply rtc_l; [apply rs_work; c|]; cbn.
Ltac pcap := unfold PIPE_CAP; cbn [length rp_pipe]; lia.
Definition abc : zfile := mkzf [x41; x42; x43] true.
Definition read_state : rst := mkr PClosed [x41; x42; x43] [] true [RRead [x41]; RRead [x42; x43]; REof].
Example C50_read : rreach abc read_state.
Proof.
  unfold rreach, new_reader.
  rprc ltac:(apply (p_write abc _ [x41; x42] [x43]); [reflexivity | reflexivity | discriminate | reflexivity | pcap]).
  rusr ltac:(apply (u_read _ [x41] [x42]); [discriminate | reflexivity | reflexivity | discriminate]).
  rprc ltac:(apply (p_write abc _ [x43] []); [reflexivity | reflexivity | discriminate | reflexivity | pcap]).
  rprc ltac:(apply p_end; reflexivity).
  rusr ltac:(apply (u_read _ [x42; x43] []); [discriminate | reflexivity | reflexivity | discriminate]).
  rprc ltac:(apply p_close; reflexivity).
  rusr ltac:(apply u_eof; reflexivity).
  apply rtc_refl.
Qed.
Example C50_read_all : REof ∈ rp_log read_state /\ received (rp_log read_state) = content abc.
Proof. split; [right; right; left | reflexivity]. Qed.

(** The user may have read all that can be read of a damaged file; then the program
    ends without an end of the stream. *)
Definition damaged : zfile := mkzf [x41] false.
Example C50_damaged : rreach damaged (mkr PDead [x41] [] true [RRead [x41]]).
Proof.
  unfold rreach, new_reader.
  rprc ltac:(apply (p_write damaged _ [x41] []); [reflexivity | reflexivity | discriminate | reflexivity | pcap]).
  rusr ltac:(apply (u_read _ [x41] []); [discriminate | reflexivity | reflexivity | discriminate]).
  rprc ltac:(apply p_end; reflexivity).
  rprc ltac:(apply p_must; reflexivity).
  apply rtc_refl.
Qed.

(** Closing the reader before zstd has written everything ends the program, even
    when the file is intact: whatever happens then, the goroutine never gets past
    rtx.Must, and until the program has ended the steps that end it are possible. *)
Theorem C50_early_close f s :
  rreach f s -> rp_proc s = PRunning -> rp_open s = false -> rp_out s <> content f ->
  forall s', rtc (rstep f) s s' ->
    rp_proc s' <> PClosed /\ rp_proc s' <> PExited true
    /\ exists s'', rtc (rwork f) s' s'' /\ rp_proc s'' = PDead.
Proof.
  intros _ Hp Ho Hc s' H.
  assert (G : rp_open s' = false /\ (rp_proc s' = PRunning /\ rp_out s' <> content f \/ rp_proc s' = PExited false \/ rp_proc s' = PDead)).
  { revert H. apply (rtc_ind_r (R := rstep f) (fun s' => rp_open s' = false /\ (rp_proc s' = PRunning /\ rp_out s' <> content f \/ rp_proc s' = PExited false \/ rp_proc s' = PDead)) s).
    - split; [exact Ho|]. left. split; assumption.
    - intros a b _ Hs (B1 & B2). destruct Hs as [b H|b H]; destruct H; cbn [rp_open rp_proc rp_out]; try congruence.
      + split; [reflexivity | exact B2].
      + split; [exact B1 | right; left; reflexivity].
      + split; [exact B1|]. destruct B2 as [(_ & B2)|[B2|B2]]; congruence.
      + split; [exact B1 | right; left; reflexivity].
      + split; [exact B1 | right; right; reflexivity].
      + destruct B2 as [(B2 & _)|[B2|B2]]; congruence. }
  destruct G as (G1 & G2). split; [destruct G2 as [(G2 & _)|[G2|G2]]; congruence|].
  split; [destruct G2 as [(G2 & _)|[G2|G2]]; congruence|].
  destruct G2 as [(G2 & G3)|[G2|G2]].
  - eexists. split; [eapply rtc_l; [apply p_sigpipe; assumption|]; eapply rtc_l; [apply p_must; reflexivity | apply rtc_refl] | reflexivity].
  - eexists. split; [eapply rtc_l; [apply p_must; exact G2 | apply rtc_refl] | reflexivity].
  - exists s'. split; [apply rtc_refl | exact G2].
Qed.
Print Assumptions C50_early_close.
Example C50_closed_early : rreach abc (mkr PRunning [x41] [] false [RRead [x41]; RClose]).
Proof.
  unfold rreach, new_reader.
  rprc ltac:(apply (p_write abc _ [x41] [x42; x43]); [reflexivity | reflexivity | discriminate | reflexivity | pcap]).
  rusr ltac:(apply (u_read _ [x41] []); [discriminate | reflexivity | reflexivity | discriminate]).
  rusr ltac:(apply u_close; [discriminate | reflexivity]).
  apply rtc_refl.
Qed.
