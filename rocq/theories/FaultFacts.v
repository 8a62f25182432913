(** Executions with failing and hanging compressors, as executions without. *)
From stdpp Require Import gmap.
From Coq Require Import NArith ZArith Lia.
From Verif Require Import GoBase GoBaseFacts GoTime Inetdiag Netlink SpecNetlink SpecCompare RecordFacts CompareFacts
  Cache SpecCache CacheFacts Saver SpecSaver SpecSystem SaverSteps SaverFiles SaverJobs SaverBlocks SaverRuns SaverHistory
  System SystemViews SystemJobs SystemInv SystemFiles SystemRefine SystemEnd SystemHidden Faults SpecFaults.

Section Cut.
Variables (w : world) (cf : config) (cap : nat) (anon : bytes -> bytes) (line : archival -> bytes) (hline : metadata -> bytes).
Variable fate_of : nat -> fate.
Notation step := (step w cf cap anon line hline).
Notation fstep := (fstep w cf cap anon line hline fate_of).

Definition cut_file (wr : nat) (f : file) : file := mkfile (f_path f) (arrives (fate_of wr) (f_data f)) (f_open f).
Definition cut (fs : gmap nat file) : gmap nat file := map_imap (fun wr f => Some (cut_file wr f)) fs.
Definition cutsys (y : sys) : sys := with_files (cut (y_files y)) y.
Lemma cut_lookup fs wr : cut fs !! wr = on_disk (fate_of wr) (fs !! wr).
Proof. unfold cut. rewrite map_lookup_imap. by destruct (fs !! wr). Qed.
Lemma cut_insert wr f fs : cut (<[wr := f]> fs) = <[wr := cut_file wr f]> (cut fs).
Proof.
  apply map_eq. intros i. rewrite cut_lookup. destruct (decide (i = wr)) as [->|N].
  - by rewrite !lookup_insert.
  - rewrite !lookup_insert_ne by done. by rewrite cut_lookup.
Qed.
Lemma firstn_firstn_app {A} n (d b : list A) : firstn n (firstn n d ++ b) = firstn n (d ++ b).
Proof.
  rewrite !firstn_app, firstn_firstn, Nat.min_id, firstn_length. destruct (Nat.le_gt_cases n (length d)).
  - rewrite Nat.min_l by lia. by rewrite Nat.sub_diag, (proj2 (Nat.sub_0_le _ _)) by lia.
  - rewrite Nat.min_r by lia. done.
Qed.
Lemma fwrite_cut wr b fs fs' : fwrite fate_of wr b (cut fs) = Some fs' -> fs' = cut (write wr b fs).
Proof.
  unfold fwrite, write. rewrite cut_lookup. destruct (fs !! wr) as [f|]; [|by intros [= <-]]. cbn. destruct (f_open f); [|by intros [= <-]].
  rewrite cut_insert. unfold cut_file. cbn. destruct (fate_of wr) as [|n|n]; cbn.
  - by intros [= <-].
  - rewrite firstn_firstn_app. by intros [= <-].
  - destruct (_ <=? _); [|done]. by intros [= <-].
Qed.
Lemma fclose_cut wr fs fs' : fclose fate_of wr (cut fs) = Some fs' -> fs' = cut (close_file wr fs).
Proof.
  unfold fclose, close_file. rewrite cut_lookup. destruct (fs !! wr) as [f|] eqn:F; [|by intros [= <-]]. cbn. rewrite cut_insert. unfold cut_file. cbn.
  destruct (fate_of wr) as [|n|n] eqn:X; cbn; try (by intros [= <-]).
  destruct (f_open f) eqn:O; [done|]. intros [= <-]. symmetry. apply insert_id. rewrite cut_lookup, F, X. cbn. by rewrite O.
Qed.
Lemma fwrite_healthy wr b fs : hangs (fate_of wr) = false -> fwrite fate_of wr b (cut fs) = Some (cut (write wr b fs)).
Proof.
  intros H. destruct (fwrite fate_of wr b (cut fs)) as [fs'|] eqn:E; [by rewrite (fwrite_cut _ _ _ _ E)|]. exfalso. revert E. unfold fwrite.
  destruct (cut fs !! wr) as [f|]; [|done]. destruct (f_open f); [|done]. by destruct (fate_of wr).
Qed.
Lemma fclose_healthy wr fs : hangs (fate_of wr) = false -> fclose fate_of wr (cut fs) = Some (cut (close_file wr fs)).
Proof.
  intros H. destruct (fclose fate_of wr (cut fs)) as [fs'|] eqn:E; [by rewrite (fclose_cut _ _ _ E)|]. exfalso. revert E. unfold fclose.
  destruct (cut fs !! wr) as [f|]; [|done]. by destruct (fate_of wr).
Qed.
Lemma exec_cut a y y' : (forall wr md, a <> AHeader wr md) -> exec cap hline a (cutsys y) = Some y' <-> exists y1, exec cap hline a y = Some y1 /\ y' = cutsys y1.
Proof.
  intros N. assert (S : forall y1, Some (cutsys y1) = Some y' <-> exists y2, Some y1 = Some y2 /\ y' = cutsys y2).
  { intros y1. split; [intros [= <-]; by exists y1|intros (y2 & [= ->] & ->); done]. }
  assert (Z : (@None sys) = Some y' <-> exists y2, @None sys = Some y2 /\ y' = cutsys y2) by (split; [done|intros (? & ? & _); done]).
  destruct a as [| | | |wr path| |wr md| |q msg wr| | | | | | |q|]; cbn [exec]; try (apply S).
  - rewrite <- S. replace (with_files (<[wr := mkfile path [] true]> (y_files (cutsys y))) (cutsys y)) with (cutsys (with_files (<[wr := mkfile path [] true]> (y_files y)) y)); [done|].
    unfold cutsys, with_files. cbn. rewrite cut_insert. unfold cut_file. cbn. by destruct (fate_of wr); cbn; rewrite ?firstn_nil.
  - by destruct (N wr md).
  - change (y_marsh (cutsys y)) with (y_marsh y). destruct (y_marsh y !! q) as [m|]; [|apply (S (panicked y))]. destruct (m_closed m); [apply (S (panicked y))|].
    destruct (_ <? _); [apply (S (with_marsh q _ y))|apply Z].
  - change (y_marsh (cutsys y)) with (y_marsh y). destruct (y_marsh y !! q) as [m|]; [|apply (S (panicked y))]. destruct (m_closed m); [apply (S (panicked y))|apply (S (with_marsh q _ y))].
  - change (y_wg (cutsys y)) with (y_wg y). destruct (y_wg y) as [|n]; [apply (S (panicked y))|apply (S (with_wg n y))].
Qed.
Lemma fexec_cut a y z : fexec cap hline fate_of a (cutsys y) = Some z -> exists y1, exec cap hline a y = Some y1 /\ z = cutsys y1.
Proof.
  destruct (match a with AHeader _ _ => true | _ => false end) eqn:Ha.
  - destruct a as [| | | | | |wr md| | | | | | | | | |]; try discriminate Ha. cbn [fexec exec]. change (y_files (cutsys y)) with (cut (y_files y)).
    destruct (fwrite fate_of wr (hline md) (cut (y_files y))) as [fs|] eqn:E1; [|done]. apply fwrite_cut in E1 as ->.
    destruct (fwrite fate_of wr nl _) as [fs|] eqn:E2; [|done]. apply fwrite_cut in E2 as ->. intros [= <-]. eexists. split; [reflexivity|]. done.
  - intros H. apply exec_cut; [|by destruct a]. intros wr md ->. discriminate Ha.
Qed.
Lemma fexec_healthy a y y1 : (forall wr, hangs (fate_of wr) = false) -> exec cap hline a y = Some y1 -> fexec cap hline fate_of a (cutsys y) = Some (cutsys y1).
Proof.
  intros Hh. destruct (match a with AHeader _ _ => true | _ => false end) eqn:Ha.
  - destruct a as [| | | | | |wr md| | | | | | | | | |]; try discriminate Ha. cbn [fexec exec]. change (y_files (cutsys y)) with (cut (y_files y)).
    intros [= <-]. rewrite fwrite_healthy by apply Hh. rewrite fwrite_healthy by apply Hh. done.
  - intros H. assert (E : exec cap hline a (cutsys y) = Some (cutsys y1)). { apply exec_cut; [intros wr md ->; discriminate Ha|]. by exists y1. } by destruct a.
Qed.
Lemma sim y z : fstep (cutsys y) z -> exists y', step y y' /\ z = cutsys y'.
Proof.
  intros H. remember (cutsys y) as x eqn:Hx.
  destruct H as [x j js view A Pc J V|x a y' A L E|x q m t ts A M Ph C|x q m A M Ph C Cl|x q m wr fs A M Ph E|x q m c wr raw A M Ph R
    |x q m c wr e A M Ph R|x q m c wr A M Ph|x q m c b wr fs A M Ph E|x q m c wr fs A M Ph E]; subst x.
  - eexists. split; [eapply st_job; [exact A|exact Pc|exact J|exact V]|]. done.
  - apply fexec_cut in E as (y1 & E & ->). eexists. split; [eapply st_act; [exact A|exact L|exact E]|]. done.
  - eexists. split; [eapply st_take; [exact A|exact M|exact Ph|exact C]|]. done.
  - eexists. split; [eapply st_finish; [exact A|exact M|exact Ph|exact C|exact Cl]|]. change (y_wg (cutsys y)) with (y_wg y). by destruct (y_wg y).
  - change (y_files (cutsys y)) with (cut (y_files y)) in E. apply fclose_cut in E as ->. eexists. split; [eapply st_close; [exact A|exact M|exact Ph]|]. done.
  - eexists. split; [eapply st_anon; [exact A|exact M|exact Ph|exact R]|]. done.
  - eexists. split; [eapply st_skip; [exact A|exact M|exact Ph|exact R]|]. done.
  - eexists. split; [eapply st_render; [exact A|exact M|exact Ph]|]. done.
  - change (y_files (cutsys y)) with (cut (y_files y)) in E. apply fwrite_cut in E as ->. eexists. split; [eapply st_write; [exact A|exact M|exact Ph]|]. done.
  - change (y_files (cutsys y)) with (cut (y_files y)) in E. apply fwrite_cut in E as ->. eexists. split; [eapply st_newline; [exact A|exact M|exact Ph]|]. done.
Qed.
Lemma follow y y' : (forall wr, hangs (fate_of wr) = false) -> step y y' -> fstep (cutsys y) (cutsys y').
Proof.
  intros Hh H. destruct H as [y j js view A Pc J V|y a y' A L E|y q m t ts A M Ph C|y q m A M Ph C Cl|y q m wr A M Ph|y q m c wr raw A M Ph R
    |y q m c wr e A M Ph R|y q m c wr A M Ph|y q m c b wr A M Ph|y q m c wr A M Ph].
  - exact (fs_job w cf cap anon line hline fate_of (cutsys y) j js view A Pc J V).
  - exact (fs_act w cf cap anon line hline fate_of (cutsys y) a (cutsys y') A L (fexec_healthy a y y' Hh E)).
  - exact (fs_take w cf cap anon line hline fate_of (cutsys y) q m t ts A M Ph C).
  - pose proof (fs_finish w cf cap anon line hline fate_of (cutsys y) q m A M Ph C Cl) as F. change (y_wg (cutsys y)) with (y_wg y) in F. by destruct (y_wg y).
  - exact (fs_close w cf cap anon line hline fate_of (cutsys y) q m wr _ A M Ph (fclose_healthy wr (y_files y) (Hh wr))).
  - exact (fs_anon w cf cap anon line hline fate_of (cutsys y) q m c wr raw A M Ph R).
  - exact (fs_skip w cf cap anon line hline fate_of (cutsys y) q m c wr e A M Ph R).
  - exact (fs_render w cf cap anon line hline fate_of (cutsys y) q m c wr A M Ph).
  - exact (fs_write w cf cap anon line hline fate_of (cutsys y) q m c b wr _ A M Ph (fwrite_healthy wr b (y_files y) (Hh wr))).
  - exact (fs_newline w cf cap anon line hline fate_of (cutsys y) q m c wr _ A M Ph (fwrite_healthy wr nl (y_files y) (Hh wr))).
Qed.
Lemma cut_empty : cut ∅ = ∅.
Proof. apply map_eq. intros i. by rewrite cut_lookup, !lookup_empty. Qed.
Lemma cut_initial bs : cutsys (initial cf bs) = initial cf bs.
Proof. unfold cutsys, initial, with_files. cbn. by rewrite cut_empty. Qed.
Lemma sims bs z : freachable w cf cap anon line hline fate_of bs z -> exists y, reachable w cf cap anon line hline bs y /\ z = cutsys y.
Proof.
  intros H. apply (rtc_ind_r (R := fstep) (fun z => exists y, reachable w cf cap anon line hline bs y /\ z = cutsys y) (initial cf bs)).
  - exists (initial cf bs). split; [apply rtc_refl|]. by rewrite cut_initial.
  - intros z1 z2 _ St (y & R & ->). apply sim in St as (y' & St & ->). exists y'. split; [by eapply rtc_r|done].
  - exact H.
Qed.
Lemma follows y y' : (forall wr, hangs (fate_of wr) = false) -> rtc step y y' -> rtc fstep (cutsys y) (cutsys y').
Proof. intros Hh H. induction H as [y|y y1 y2 S _ IH]; [apply rtc_refl|]. eapply rtc_l; [by apply follow|exact IH]. Qed.

Lemma acc_cut y : Acc (fun y' y => fstep y y') (cutsys y).
Proof.
  induction (terminates w cf cap anon line hline y) as [y _ IH]. constructor. intros z H. apply sim in H as (y' & St & ->). by apply IH.
Qed.
Lemma no_infinite_faults bs (f : nat -> sys) : freachable w cf cap anon line hline fate_of bs (f 0) -> ~ (forall n, fstep (f n) (f (S n))).
Proof.
  intros R H. apply sims in R as (y & _ & E). assert (G : forall y, Acc (fun y' y => fstep y y') y -> forall n, f n <> y).
  { intros x A. induction A as [x _ IH]. intros n En. apply (IH (f (S n))) with (n := S n); [|reflexivity]. rewrite <- En. apply H. }
  exact (G (cutsys y) (acc_cut y) 0 E).
Qed.

(** ** Blocked goroutines *)
Lemma fwrite_none wr b y : fwrite fate_of wr b (y_files y) = None -> too_much fate_of y wr b.
Proof.
  unfold fwrite, too_much. destruct (y_files y !! wr) as [f|]; [|done]. destruct (f_open f) eqn:O; [|done].
  destruct (fate_of wr) as [|n|n]; [done..|]. rewrite app_length. destruct (Nat.leb_spec (length (f_data f) + length b) n); [done|]. intros _. by exists n, f.
Qed.
Lemma fclose_none wr y : fclose fate_of wr (y_files y) = None -> hangs (fate_of wr) = true /\ exists f, y_files y !! wr = Some f /\ f_open f = true.
Proof.
  unfold fclose. destruct (y_files y !! wr) as [f|]; [|done]. destruct (fate_of wr); [done..|]. destruct (f_open f) eqn:O; [|done]. intros _. split; [done|]. by exists f.
Qed.
Hypothesis Hlen : forall x, length (anon x) = length x.
Lemma fbusy z q m : alive z -> y_marsh z !! q = Some m -> busy m = true -> (exists z', fstep z z') \/ held_up fate_of z m.
Proof.
  intros A M B. unfold busy in B. unfold held_up. destruct (m_phase m) as [|[[c|] wr]|c wr|c b wr|c wr|] eqn:Ph.
  - left. destruct (m_chan m) as [|t ts] eqn:C; eexists; [by eapply fs_finish|by eapply fs_take].
  - left. destruct (anonymize_done anon Hlen (match ar_raw (current (y_heap z) c) with Some b => b | None => [] end)) as [[h E]|[e E]].
    + eexists. eapply fs_anon; [exact A|exact M|exact Ph|exact E].
    + eexists. eapply fs_skip; [exact A|exact M|exact Ph|exact E].
  - destruct (fclose fate_of wr (y_files z)) as [fs|] eqn:E; [|right; by apply fclose_none]. left. eexists. by eapply fs_close.
  - left. eexists. by eapply fs_render.
  - destruct (fwrite fate_of wr b (y_files z)) as [fs|] eqn:E; [|right; by apply fwrite_none]. left. eexists. by eapply fs_write.
  - destruct (fwrite fate_of wr nl (y_files z)) as [fs|] eqn:E; [|right; by apply fwrite_none]. left. eexists. by eapply fs_newline.
  - discriminate B.
Qed.
Hypothesis Hn : 1 <= nmarsh cf.
Variable bs : list block.
Hypothesis Hcmp : all_comparable cf bs.
Hypothesis Hpar : Forall (parses cf) bs.
Hypothesis Hfair : fair_order w.
Notation freachable := (freachable w cf cap anon line hline fate_of bs).
Notation reachable := (reachable w cf cap anon line hline bs).
Lemma fboth z wr b y : fwrite fate_of wr b (y_files z) = None \/ (exists fs, fwrite fate_of wr b (y_files z) = Some fs /\ fwrite fate_of wr y fs = None) ->
  too_much fate_of z wr (b ++ y).
Proof.
  intros [H|(fs & E1 & E2)].
  - apply fwrite_none in H as (n & f & X & F & O & L). exists n, f. rewrite app_length. repeat split; [done..|lia].
  - unfold fwrite in E1, E2. destruct (y_files z !! wr) as [f|] eqn:F; [|injection E1 as <-; by rewrite F in E2].
    destruct (f_open f) eqn:O; [|injection E1 as <-; rewrite F, O in E2; done].
    destruct (fate_of wr) as [|n|n] eqn:X.
    + injection E1 as <-. by rewrite lookup_insert in E2.
    + injection E1 as <-. by rewrite lookup_insert in E2.
    + destruct (Nat.leb_spec (length (f_data f ++ b)) n) as [L|L]; [|done]. injection E1 as <-. rewrite lookup_insert in E2. cbn in E2.
      destruct (Nat.leb_spec (length ((f_data f ++ b) ++ y)) n) as [L2|L2]; [done|]. exists n, f. rewrite !app_length in *. repeat split; [done..|lia].
Qed.
(** A state in which nothing can move, though not all is done. *)
Lemma stuck_state z : 1 <= cap -> freachable z -> stuck fstep z -> ~ finished z ->
  (forall q m, y_marsh z !! q = Some m -> held_up fate_of z m \/ at_rest m) /\
  ((y_jobs z = [] /\ y_pc z = length (s_log (y_saver z)) /\ exists q m, y_marsh z !! q = Some m /\ held_up fate_of z m) \/ saver_held_up fate_of hline cap z).
Proof.
  intros Hcap Hr St Nf. destruct (sims bs z Hr) as (y & Ry & Ez).
  destruct (all_invariants w cf cap anon line hline Hlen Hn bs y Ry) as (I1 & I2 & (P & Sh & G & W) & I4).
  assert (Dd : s_dead (y_saver z) = false) by (subst z; exact (never_dead w cf cap anon line hline Hlen Hn bs Hcmp Hpar Hfair y Ry)).
  assert (A : alive z) by (split; [by subst z|intros [X _]; congruence]).
  assert (Hm : y_marsh z = y_marsh y) by (by subst z).
  assert (R : forall q m, y_marsh z !! q = Some m -> held_up fate_of z m \/ at_rest m).
  { intros q m M. destruct (busy m) eqn:B.
    - destruct (fbusy z q m A M B) as [(z' & S)|H]; [by destruct (St z')|by left].
    - right. unfold busy in B. unfold at_rest. rewrite Hm in M. destruct (G q m M) as [_ G2]. destruct (m_phase m) eqn:Ph; try discriminate B.
      + destruct (m_chan m); [|discriminate B]. split; [done|]. right. done.
      + split; [by apply G2|by left]. }
  split; [exact R|]. destruct (proj2 I1) as (Hpc & _).
  assert (Es : y_saver z = y_saver y) by (by subst z). assert (Ep : y_pc z = y_pc y) by (by subst z). assert (Ej : y_jobs z = y_jobs y) by (by subst z).
  destruct (Nat.eq_dec (y_pc z) (length (s_log (y_saver z)))) as [E|E].
  - left. destruct (y_jobs z) as [|j js] eqn:J.
    2:{ exfalso. eapply St. eapply (fs_job _ _ _ _ _ _ _ z j js (current (y_heap z))); [exact A|exact E|exact J|]. intros c. apply sees_refl. }
    split; [done|]. split; [exact E|].
    assert (D : (forall q m, y_marsh z !! q = Some m -> at_rest m) \/ exists q m, y_marsh z !! q = Some m /\ held_up fate_of z m).
    { revert R. generalize (y_marsh z). induction l as [|x l IH]; intros Rl; [left; intros q m H; by rewrite lookup_nil in H|].
      destruct (Rl 0 x eq_refl) as [H|H]; [right; by exists 0, x|]. destruct IH as [IH|(q & m & M & Hq)].
      - intros q m M. exact (Rl (S q) m M).
      - left. intros [|q] m M; [by injection M as <-|by eapply IH].
      - right. by exists (S q), m. }
    destruct D as [D|D]; [|exact D]. exfalso. apply Nf.
    destruct (progress w cf cap anon line hline Hlen Hn bs y Hcap Ry) as [(y' & Sy)|[F|[X _]]]; [|by subst z|congruence].
    remember y as y0 eqn:Ey0 in Sy.
    destruct Sy as [y0 j js view A1 Pc1 J1 V1|y0 a y' A1 L1 E1|y0 q m t ts A1 M1 Ph1 C1|y0 q m A1 M1 Ph1 C1 Cl1|y0 q m wr A1 M1 Ph1|y0 q m c wr raw A1 M1 Ph1 R1
      |y0 q m c wr e A1 M1 Ph1 R1|y0 q m c wr A1 M1 Ph1|y0 q m c b wr A1 M1 Ph1|y0 q m c wr A1 M1 Ph1]; subst y0.
    1: congruence.
    1: { rewrite <- Es, <- Ep, E in L1. apply lookup_lt_Some in L1. lia. }
    all: destruct (D q m ltac:(by rewrite Hm)) as (X1 & [X2|(X2 & X3)]); congruence.
  - right. unfold saver_held_up. destruct (lookup_lt_is_Some_2 (s_log (y_saver z)) (y_pc z)) as [a L]; [rewrite Es, Ep in *; lia|]. rewrite L.
    destruct (fexec cap hline fate_of a z) as [z'|] eqn:X.
    { exfalso. eapply St. eapply fs_act; [exact A|exact L|exact X]. }
    destruct a as [| | | | | |wr md| |q msg wr| | | | | | |q|]; cbn [fexec exec] in X; try discriminate X.
    + apply fboth. destruct (fwrite fate_of wr (hline md) (y_files z)) as [fs|] eqn:E1; [|by left]. right. exists fs. split; [done|].
      destruct (fwrite fate_of wr nl fs) as [fs'|] eqn:E2; [discriminate X|exact E2].
    + destruct (y_marsh z !! q) as [m|] eqn:M; [|discriminate X]. destruct (m_closed m); [discriminate X|].
      destruct (Nat.ltb_spec (length (m_chan m)) cap) as [C|C]; [discriminate X|]. exists m. split; [done|]. split; [|exact C].
      destruct (R q m M) as [H|[H _]]; [exact H|]. rewrite H in C. cbn in C. lia.
    + destruct (y_marsh z !! q) as [m|]; [|discriminate X]. destruct (m_closed m); discriminate X.
    + destruct (y_wg z); discriminate X.
Qed.

(** ** Files *)
Lemma fault_prefix z : freachable z -> forall wr f, y_files z !! wr = Some f ->
  ACreate wr (f_path f) ∈ s_log (message_saver_loop w cf bs) /\
  (exists rest, contents anon line hline wr (s_log (message_saver_loop w cf bs)) = f_data f ++ rest) /\
  (forall n, fate_of wr = Fails n -> length (f_data f) <= n).
Proof.
  intros Hr wr f Hf. apply sims in Hr as (y & Ry & ->). change (y_files (cutsys y)) with (cut (y_files y)) in Hf. rewrite cut_lookup in Hf.
  destruct (y_files y !! wr) as [g|] eqn:Hg; [|done]. injection Hf as <-. cbn [f_path f_data].
  destruct (file_prefix w cf cap anon line hline Hlen Hn bs Hcmp y Ry wr g Hg) as [C [rest E]]. split; [exact C|]. split.
  - destruct (fate_of wr) as [|n|n]; cbn [arrives]; [by exists rest| |by exists rest]. exists (skipn n (f_data g) ++ rest). rewrite E, app_assoc, firstn_skipn. done.
  - intros n ->. cbn. rewrite firstn_length. lia.
Qed.
Lemma fault_final z : freachable z -> finished z -> y_saver z = message_saver_loop w cf bs /\
  forall wr, y_files z !! wr = on_disk (fate_of wr) (final_file anon line hline wr (s_log (message_saver_loop w cf bs))).
Proof.
  intros Hr Hf. apply sims in Hr as (y & Ry & ->). destruct (same_end w cf cap anon line hline Hlen Hn bs Hcmp y Ry Hf) as [E G].
  split; [exact E|]. intros wr. change (y_files (cutsys y)) with (cut (y_files y)). by rewrite cut_lookup, G.
Qed.
Lemma fault_wait z : freachable z -> y_wg z = 0 -> finished z.
Proof.
  intros Hr Hw. apply sims in Hr as (y & Ry & ->). exact (wait_returns w cf cap anon line hline Hlen Hn bs y Ry Hw).
Qed.
(** A writer that hangs is never closed. *)
Definition hanging_open (z : sys) : Prop := forall wr f, y_files z !! wr = Some f -> hangs (fate_of wr) = true -> f_open f = true.
Lemma fwrite_open wr b fs fs' : fwrite fate_of wr b fs = Some fs' ->
  (forall i f, fs !! i = Some f -> hangs (fate_of i) = true -> f_open f = true) -> forall i f, fs' !! i = Some f -> hangs (fate_of i) = true -> f_open f = true.
Proof.
  unfold fwrite. intros E H i f. destruct (fs !! wr) as [g|]; [|injection E as <-; apply H]. destruct (f_open g); [|injection E as <-; apply H].
  assert (X : forall d, fs' = <[wr := mkfile (f_path g) d true]> fs -> fs' !! i = Some f -> hangs (fate_of i) = true -> f_open f = true).
  { intros d -> Hi Hh. destruct (decide (i = wr)) as [->|N]; [rewrite lookup_insert in Hi; by injection Hi as <-|]. rewrite lookup_insert_ne in Hi by done. by eapply H. }
  destruct (fate_of wr) as [|n|n].
  - eapply X. by injection E as <-.
  - eapply X. by injection E as <-.
  - destruct (_ <=? _); [|done]. eapply X. by injection E as <-.
Qed.
Lemma fclose_open wr fs fs' : fclose fate_of wr fs = Some fs' ->
  (forall i f, fs !! i = Some f -> hangs (fate_of i) = true -> f_open f = true) -> forall i f, fs' !! i = Some f -> hangs (fate_of i) = true -> f_open f = true.
Proof.
  unfold fclose. intros E H i f. destruct (fs !! wr) as [g|] eqn:F; [|injection E as <-; apply H].
  destruct (hangs (fate_of wr)) eqn:Hw.
  - destruct (fate_of wr); try discriminate Hw. destruct (f_open g); [done|]. injection E as <-. apply H.
  - assert (fs' = <[wr := mkfile (f_path g) (f_data g) false]> fs) as -> by (destruct (fate_of wr); try discriminate Hw; by injection E as <-).
    intros Hi Hh. destruct (decide (i = wr)) as [->|N]; [congruence|]. rewrite lookup_insert_ne in Hi by done. by eapply H.
Qed.
Lemma hanging_step z z' : hanging_open z -> fstep z z' -> hanging_open z'.
Proof.
  unfold hanging_open. intros H S. destruct S as [x j js view A Pc J V|x a y' A L E|x q m t ts A M Ph C|x q m A M Ph C Cl|x q m wr fs A M Ph E|x q m c wr raw A M Ph R
    |x q m c wr e A M Ph R|x q m c wr A M Ph|x q m c b wr fs A M Ph E|x q m c wr fs A M Ph E]; try exact H.
  - cbn [y_files with_pc]. destruct (match a with AHeader _ _ => true | _ => false end) eqn:Ha.
    + destruct a as [| | | | | |wr md| | | | | | | | | |]; try discriminate Ha. cbn [fexec] in E. destruct (fwrite fate_of wr (hline md) (y_files x)) as [fs|] eqn:E1; [|done].
      destruct (fwrite fate_of wr nl fs) as [fs'|] eqn:E2; [|done]. injection E as <-. cbn [y_files with_files]. eapply fwrite_open; [exact E2|]. eapply fwrite_open; [exact E1|]. exact H.
    + assert (E' : exec cap hline a x = Some y') by (by destruct a). clear E. destruct a as [| | | |wr path| |wr md| |q msg wr| | | | | | |q|]; cbn [exec] in E'; try (injection E' as <-; exact H); try discriminate Ha.
      * injection E' as <-. cbn [y_files with_files]. intros i f Hi Hh. destruct (decide (i = wr)) as [->|N]; [rewrite lookup_insert in Hi; by injection Hi as <-|].
        rewrite lookup_insert_ne in Hi by done. by eapply H.
      * destruct (y_marsh x !! q) as [m|]; [|injection E' as <-; exact H]. destruct (m_closed m); [injection E' as <-; exact H|]. destruct (_ <? _); [|done]. injection E' as <-. exact H.
      * destruct (y_marsh x !! q) as [m|]; [|injection E' as <-; exact H]. destruct (m_closed m); injection E' as <-; exact H.
      * destruct (y_wg x); injection E' as <-; exact H.
  - destruct (y_wg x); exact H.
  - cbn. by eapply fclose_open.
  - cbn. by eapply fwrite_open.
  - cbn. by eapply fwrite_open.
Qed.
Lemma hanging_reachable z : freachable z -> hanging_open z.
Proof.
  intros H. apply (rtc_ind_r (R := fstep) hanging_open (initial cf bs)); [|intros z1 z2 _ S I; by eapply hanging_step|exact H].
  intros wr f Hf. cbn in Hf. by rewrite lookup_empty in Hf.
Qed.
Lemma fault_closed z : freachable z -> finished z -> forall wr f, y_files z !! wr = Some f ->
  f_open f = false /\ hangs (fate_of wr) = false /\ f_data f = arrives (fate_of wr) (contents anon line hline wr (s_log (message_saver_loop w cf bs))).
Proof.
  intros Hr Hf wr f Hw. pose proof (hanging_reachable z Hr wr f Hw) as Ho.
  assert (C : f_open f = false).
  { destruct (sims bs z Hr) as (y & Ry & ->). destruct (at_end w cf cap anon line hline Hlen Hn bs Hcmp Hpar Hfair y Ry Hf) as (_ & _ & Cl).
    change (y_files (cutsys y)) with (cut (y_files y)) in Hw. rewrite cut_lookup in Hw. destruct (y_files y !! wr) as [g|] eqn:Hg; [|done]. injection Hw as <-. exact (Cl wr g Hg). }
  split; [exact C|]. split; [destruct (hangs (fate_of wr)); [rewrite Ho in C by done; done|done]|].
  destruct (fault_final z Hr Hf) as [_ G]. rewrite G in Hw. unfold final_file in Hw. destruct (file_actions wr _) as [|a l]; [done|]. destruct a; try done. by injection Hw as <-.
Qed.
(** Nobody hangs. *)
Lemma fault_no_deadlock z : 1 <= cap -> (forall wr, hangs (fate_of wr) = false) -> freachable z -> finished z \/ exists z', fstep z z'.
Proof.
  intros Hcap Hh Hr. apply sims in Hr as (y & Ry & ->). destruct (no_deadlock w cf cap anon line hline Hlen Hn bs Hcmp Hcap Hpar Hfair y Ry) as [F|[y' S]]; [by left|].
  right. exists (cutsys y'). by apply follow.
Qed.
Lemma fault_completes z : 1 <= cap -> (forall wr, hangs (fate_of wr) = false) -> freachable z -> exists z', rtc fstep z z' /\ finished z'.
Proof.
  intros Hcap Hh Hr. apply sims in Hr as (y & Ry & ->). destruct (ends w cf cap anon line hline Hlen Hn bs Hcmp Hpar Hfair y Hcap Ry) as (y' & S & F).
  exists (cutsys y'). split; [by apply follows|exact F].
Qed.
(** What marshallers that are at rest have written. *)
Lemma closing_last D R wr q md recs path cl q' : D ++ R = written wr q md recs path cl -> ASend q' None wr ∈ D -> R = [].
Proof.
  intros H Hin. destruct R as [|a R _] using rev_ind; [done|]. exfalso. unfold written in H.
  set (pre := [ACreate wr path; AHeader wr md] ++ map (fun m => ASend q (Some m) wr) recs) in *.
  assert (Np : ASend q' None wr ∉ pre).
  { unfold pre. intros X. apply elem_of_app in X as [X|X].
    - apply elem_of_cons in X as [X|X]; [discriminate X|]. apply elem_of_list_singleton in X. discriminate X.
    - apply elem_of_list_In, in_map_iff in X as (? & X & _). discriminate X. }
  rewrite app_assoc in H. rewrite (app_assoc [ACreate wr path; AHeader wr md]) in H. fold pre in H. destruct cl.
  - apply app_inj_tail in H as [H _]. apply Np. rewrite <- H. apply elem_of_app. by left.
  - rewrite app_nil_r in H. apply Np. rewrite <- H. apply elem_of_app. left. apply elem_of_app. by left.
Qed.
Lemma rest_complete z : 1 <= cap -> freachable z -> forall q m, y_marsh z !! q = Some m -> at_rest m ->
  forall wr, ASend q None wr ∈ firstn (y_pc z) (s_log (y_saver z)) ->
  y_files z !! wr = on_disk (fate_of wr) (final_file anon line hline wr (s_log (message_saver_loop w cf bs))).
Proof.
  intros Hcap Hr q m M [Hc Hp] wr Hin. destruct (sims bs z Hr) as (y & Ry & ->).
  change (y_files (cutsys y)) with (cut (y_files y)). rewrite cut_lookup. f_equal.
  change (y_marsh (cutsys y)) with (y_marsh y) in M. change (firstn (y_pc (cutsys y)) (s_log (y_saver (cutsys y)))) with (executed y) in Hin.
  destruct (all_invariants w cf cap anon line hline Hlen Hn bs y Ry) as (I1 & I2 & (P & _) & I4).
  destruct (executed_log y) as [e El].
  assert (Ho : forall q' msg, ASend q' msg wr ∈ s_log (y_saver y) -> q' = q).
  { destruct (owner_exists w cf anon hline Hlen Hn (y_saver y) wr (proj1 I1)) as (q0 & _ & H). intros q' msg X. rewrite (H q' msg X). symmetry.
    eapply H. rewrite El. apply elem_of_app. left. exact Hin. }
  destruct (I4 wr q m M Ho) as (D & HD & HF).
  assert (Pe : pending m = []) by (unfold pending; rewrite Hc; by destruct Hp as [->|[-> _]]).
  rewrite Pe in HD. cbn in HD. rewrite app_nil_r in HD.
  destruct (ends w cf cap anon line hline Hlen Hn bs Hcmp Hpar Hfair y Hcap Ry) as (y' & S & F').
  assert (Ry' : reachable y') by (red; by transitivity y).
  destruct (same_end w cf cap anon line hline Hlen Hn bs Hcmp y' Ry' F') as [Ey' _].
  destruct (log_prefix w cf cap anon line hline Hlen Hn bs Hcmp y Ry) as [e2 E2].
  assert (HL : file_actions wr (s_log (message_saver_loop w cf bs)) = D ++ (file_actions wr e ++ file_actions wr e2)).
  { rewrite E2, El, !file_actions_app, HD. by rewrite app_assoc. }
  destruct (all_invariants w cf cap anon line hline Hlen Hn bs y' Ry') as ((Rs & _) & _). rewrite Ey' in Rs.
  assert (HinD : ASend q None wr ∈ D).
  { rewrite <- HD. unfold file_actions. apply elem_of_list_In, List.filter_In. split; [by apply elem_of_list_In|]. cbn. apply Nat.eqb_refl. }
  destruct (file_histories w cf _ wr Rs) as [F|(cl & q0 & k & md & recs & path & F & _)].
  - rewrite HL in F. apply app_eq_nil in F as [-> _]. by apply elem_of_nil in HinD.
  - rewrite HL in F. pose proof (closing_last _ _ _ _ _ _ _ _ _ F HinD) as Z. rewrite Z, app_nil_r in HL, F.
    rewrite HF, partial_other by (rewrite Pe; intros t Ht; by apply elem_of_nil in Ht).
    rewrite (image_written anon line hline D [] wr q0 md recs path cl) by (by rewrite app_nil_r).
    unfold final_file, contents, ended_file, image_of. rewrite HL. reflexivity.
Qed.
(** A file is created once. *)
Lemma create_once z wr path : freachable z -> s_log (y_saver z) !! y_pc z = Some (ACreate wr path) -> y_files z !! wr = None.
Proof.
  intros Hr L. destruct (sims bs z Hr) as (y & Ry & ->). change (y_files (cutsys y)) with (cut (y_files y)). rewrite cut_lookup.
  change (s_log (y_saver (cutsys y)) !! y_pc (cutsys y)) with (s_log (y_saver y) !! y_pc y) in L.
  pose proof (files_prefix w cf cap anon line hline Hlen Hn bs y wr Ry) as Hp. destruct (y_files y !! wr) as [f|]; [exfalso|done]. destruct Hp as [Hin _].
  destruct (all_invariants w cf cap anon line hline Hlen Hn bs y Ry) as ((Rs & _) & _).
  assert (El : s_log (y_saver y) = executed y ++ ACreate wr path :: skipn (S (y_pc y)) (s_log (y_saver y))) by (unfold executed; symmetry; by apply take_drop_middle).
  assert (HinA : ACreate wr (f_path f) ∈ file_actions wr (executed y)).
  { unfold file_actions. apply elem_of_list_In, List.filter_In. split; [by apply elem_of_list_In|]. cbn. apply Nat.eqb_refl. }
  assert (HA : file_actions wr (s_log (y_saver y)) = file_actions wr (executed y) ++ ACreate wr path :: file_actions wr (skipn (S (y_pc y)) (s_log (y_saver y)))).
  { rewrite El at 1. rewrite file_actions_app. f_equal. unfold file_actions. cbn. by rewrite Nat.eqb_refl. }
  destruct (file_histories w cf _ wr Rs) as [F|(cl & q0 & k & md & recs & path' & F & _)]; rewrite HA in F.
  - by destruct (app_cons_not_nil _ _ _ (eq_sym F)).
  - destruct (file_actions wr (executed y)) as [|a A]; [by apply elem_of_nil in HinA|]. unfold written in F. cbn in F. injection F as _ F.
    assert (X : ACreate wr path ∈ AHeader wr md :: map (fun m => ASend q0 (Some m) wr) recs ++ (if cl then [ASend q0 None wr] else [])).
    { rewrite <- F. apply elem_of_app. right. by left. }
    apply elem_of_cons in X as [X|X]; [discriminate X|]. apply elem_of_app in X as [X|X].
    + apply elem_of_list_In, in_map_iff in X as (? & X & _). discriminate X.
    + destruct cl; [|by apply elem_of_nil in X]. apply elem_of_list_singleton in X. discriminate X.
Qed.
(** The file of a hanging compressor only grows. *)
Definition grows (wr : nat) (fs fs' : gmap nat file) : Prop := forall f, fs !! wr = Some f -> f_open f = true ->
  exists f', fs' !! wr = Some f' /\ f_open f' = true /\ length (f_data f) <= length (f_data f').
Lemma grows_refl wr fs : grows wr fs fs.
Proof. intros f F O. exists f. done. Qed.
Lemma grows_trans wr a b c : grows wr a b -> grows wr b c -> grows wr a c.
Proof. intros H1 H2 f F O. destruct (H1 f F O) as (g & G & Og & L1). destruct (H2 g G Og) as (h & H & Oh & L2). exists h. split; [done|]. split; [done|lia]. Qed.
Lemma fwrite_grows wr i b fs fs' : hangs (fate_of wr) = true -> fwrite fate_of i b fs = Some fs' -> grows wr fs fs'.
Proof.
  intros Hh E. unfold fwrite in E. destruct (fs !! i) as [g|] eqn:G; [|injection E as <-; apply grows_refl]. destruct (f_open g) eqn:O; [|injection E as <-; apply grows_refl].
  intros f F Of. destruct (decide (i = wr)) as [->|N].
  - destruct (fate_of wr) as [|n|n]; [discriminate Hh..|]. destruct (_ <=? _); [|done]. injection E as <-. rewrite lookup_insert. eexists. split; [reflexivity|].
    split; [done|]. cbn. rewrite G in F. injection F as <-. rewrite app_length. lia.
  - assert (fs' !! wr = fs !! wr) as ->; [|by exists f].
    destruct (fate_of i) as [|n|n]; [|  |destruct (_ <=? _); [|done]]; injection E as <-; by rewrite lookup_insert_ne.
Qed.
Lemma fclose_grows wr i fs fs' : hangs (fate_of wr) = true -> fclose fate_of i fs = Some fs' -> grows wr fs fs'.
Proof.
  intros Hh E. unfold fclose in E. destruct (fs !! i) as [g|] eqn:G; [|injection E as <-; apply grows_refl].
  intros f F Of. destruct (decide (i = wr)) as [->|N].
  - destruct (fate_of wr) as [|n|n]; [discriminate Hh..|]. rewrite G in F. injection F as <-. by rewrite Of in E.
  - assert (fs' !! wr = fs !! wr) as ->; [|by exists f].
    destruct (fate_of i) as [|n|n]; [| |destruct (f_open g); [done|]]; injection E as <-; by rewrite ?lookup_insert_ne.
Qed.
Lemma fstep_grows z z' wr : freachable z -> hangs (fate_of wr) = true -> fstep z z' -> grows wr (y_files z) (y_files z').
Proof.
  intros Hr Hh S. destruct S as [x j js view A Pc J V|x a y' A L E|x q m t ts A M Ph C|x q m A M Ph C Cl|x q m i fs A M Ph E|x q m c i raw A M Ph R
    |x q m c i e A M Ph R|x q m c i A M Ph|x q m c b i fs A M Ph E|x q m c i fs A M Ph E]; try apply grows_refl.
  - cbn [y_files with_pc]. destruct (match a with AHeader _ _ => true | _ => false end) eqn:Ha.
    + destruct a as [| | | | | |i md| | | | | | | | | |]; try discriminate Ha. cbn [fexec] in E. destruct (fwrite fate_of i (hline md) (y_files x)) as [fs|] eqn:E1; [|done].
      destruct (fwrite fate_of i nl fs) as [fs'|] eqn:E2; [|done]. injection E as <-. cbn [y_files with_files]. eapply grows_trans; eapply fwrite_grows; [exact Hh|exact E1|exact Hh|exact E2].
    + assert (E' : exec cap hline a x = Some y') by (by destruct a). clear E.
      destruct a as [| | | |i path| |i md| |q msg i| | | | | | |q|]; cbn [exec] in E'; try (injection E' as <-; apply grows_refl); try discriminate Ha.
      * injection E' as <-. cbn [y_files with_files]. intros f F O. destruct (decide (i = wr)) as [->|N].
        -- rewrite (create_once x wr path Hr L) in F. discriminate F.
        -- rewrite lookup_insert_ne by done. by exists f.
      * destruct (y_marsh x !! q) as [m|]; [|injection E' as <-; apply grows_refl]. destruct (m_closed m); [injection E' as <-; apply grows_refl|].
        destruct (_ <? _); [|done]. injection E' as <-. apply grows_refl.
      * destruct (y_marsh x !! q) as [m|]; [|injection E' as <-; apply grows_refl]. destruct (m_closed m); injection E' as <-; apply grows_refl.
      * destruct (y_wg x); injection E' as <-; apply grows_refl.
  - destruct (y_wg x); apply grows_refl.
  - cbn. by eapply fclose_grows.
  - cbn. by eapply fwrite_grows.
  - cbn. by eapply fwrite_grows.
Qed.
(** A marshaller that is held up stays where it is. *)
Lemma too_much_step z z' wr b : freachable z -> fstep z z' -> too_much fate_of z wr b -> too_much fate_of z' wr b.
Proof.
  intros Hr S (n & f & X & F & O & L). destruct (fstep_grows z z' wr Hr ltac:(by rewrite X) S f F O) as (g & G & Og & Lg). exists n, g. repeat split; [done..|lia].
Qed.
Lemma held_phase z z' p c c' k k' : freachable z -> fstep z z' -> held_up fate_of z (mkmarsh c k p) -> held_up fate_of z' (mkmarsh c' k' p).
Proof.
  intros Hr S H. unfold held_up in *. cbn [m_phase] in *. destruct p as [|[[c0|] wr]|c0 wr|c0 b wr|c0 wr|]; try done.
  - destruct H as (Hh & f & F & O). split; [done|]. destruct (fstep_grows z z' wr Hr Hh S f F O) as (g & G & Og & _). by exists g.
  - by eapply too_much_step.
  - by eapply too_much_step.
Qed.
Lemma fwrite_too_much z wr b fs : too_much fate_of z wr b -> fwrite fate_of wr b (y_files z) = Some fs -> False.
Proof.
  intros (n & f & X & F & O & L) E. unfold fwrite in E. rewrite F, O, X, app_length in E. destruct (Nat.leb_spec (length (f_data f) + length b) n); [lia|done].
Qed.
Lemma held_step z z' q m : freachable z -> y_marsh z !! q = Some m -> held_up fate_of z m -> fstep z z' ->
  exists m', y_marsh z' !! q = Some m' /\ m_phase m' = m_phase m /\ held_up fate_of z' m'.
Proof.
  intros Hr M H S.
  assert (K : forall m', y_marsh z' !! q = Some m' -> m_phase m' = m_phase m -> exists m', y_marsh z' !! q = Some m' /\ m_phase m' = m_phase m /\ held_up fate_of z' m').
  { intros m' M' P. exists m'. split; [done|]. split; [done|]. destruct m as [c k p], m' as [c' k' p']. cbn in P. subst p'. by eapply held_phase. }
  assert (Ins : forall q0 m0 m1, y_marsh z !! q0 = Some m0 -> y_marsh z' = <[q0 := m1]> (y_marsh z) -> (q0 = q -> m_phase m1 = m_phase m) ->
    exists m', y_marsh z' !! q = Some m' /\ m_phase m' = m_phase m /\ held_up fate_of z' m').
  { intros q0 m0 m1 M0 E Hp. destruct (decide (q0 = q)) as [->|N].
    - apply (K m1); [|by apply Hp]. rewrite E. apply list_lookup_insert. by eapply lookup_lt_Some.
    - apply (K m); [|done]. rewrite E. rewrite list_lookup_insert_ne by done. exact M. }
  remember z as x eqn:Ex in S.
  destruct S as [x j js view A Pc J V|x a y' A L E|x q0 m0 t ts A M0 Ph C|x q0 m0 A M0 Ph C Cl|x q0 m0 i fs A M0 Ph E|x q0 m0 c i raw A M0 Ph R
    |x q0 m0 c i e A M0 Ph R|x q0 m0 c i A M0 Ph|x q0 m0 c b i fs A M0 Ph E|x q0 m0 c i fs A M0 Ph E]; subst x.
  - by apply (K m).
  - destruct (match a with AHeader _ _ => true | _ => false end) eqn:Ha.
    + destruct a as [| | | | | |i md| | | | | | | | | |]; try discriminate Ha. cbn [fexec] in E. destruct (fwrite fate_of i (hline md) (y_files z)) as [fs|] eqn:E1; [|done].
      destruct (fwrite fate_of i nl fs) as [fs'|] eqn:E2; [|done]. injection E as <-. by apply (K m).
    + assert (E' : exec cap hline a z = Some y') by (by destruct a). clear E.
      destruct a as [| | | |i path| |i md| |q0 msg i| | | | | | |q0|]; cbn [exec] in E'; try (injection E' as <-; by apply (K m)); try discriminate Ha.
      * destruct (y_marsh z !! q0) as [m0|] eqn:M0; [|injection E' as <-; by apply (K m)]. destruct (m_closed m0); [injection E' as <-; by apply (K m)|].
        destruct (_ <? _); [|done]. injection E' as <-. eapply Ins; [exact M0|reflexivity|]. intros ->. rewrite M in M0. by injection M0 as <-.
      * destruct (y_marsh z !! q0) as [m0|] eqn:M0; [|injection E' as <-; by apply (K m)]. destruct (m_closed m0); injection E' as <-; [by apply (K m)|].
        eapply Ins; [exact M0|reflexivity|]. intros ->. rewrite M in M0. by injection M0 as <-.
      * destruct (y_wg z); injection E' as <-; by apply (K m).
  - eapply Ins; [exact M0|reflexivity|]. intros ->. rewrite M in M0. injection M0 as <-. exfalso. unfold held_up in H. by rewrite Ph in H.
  - destruct (y_wg z); [by apply (K m)|]. eapply Ins; [exact M0|reflexivity|]. intros ->. rewrite M in M0. injection M0 as <-. exfalso. unfold held_up in H. by rewrite Ph in H.
  - eapply Ins; [exact M0|reflexivity|]. intros ->. rewrite M in M0. injection M0 as <-. exfalso. unfold held_up in H. rewrite Ph in H. destruct H as (Hh & f & F & O).
    unfold fclose in E. rewrite F, O in E. by destruct (fate_of i).
  - eapply Ins; [exact M0|reflexivity|]. intros ->. rewrite M in M0. injection M0 as <-. exfalso. unfold held_up in H. by rewrite Ph in H.
  - eapply Ins; [exact M0|reflexivity|]. intros ->. rewrite M in M0. injection M0 as <-. exfalso. unfold held_up in H. by rewrite Ph in H.
  - eapply Ins; [exact M0|reflexivity|]. intros ->. rewrite M in M0. injection M0 as <-. exfalso. unfold held_up in H. by rewrite Ph in H.
  - eapply Ins; [exact M0|reflexivity|]. intros ->. rewrite M in M0. injection M0 as <-. exfalso. unfold held_up in H. rewrite Ph in H. by eapply fwrite_too_much.
  - eapply Ins; [exact M0|reflexivity|]. intros ->. rewrite M in M0. injection M0 as <-. exfalso. unfold held_up in H. rewrite Ph in H. by eapply fwrite_too_much.
Qed.
Lemma held_forever z z' q m : freachable z -> y_marsh z !! q = Some m -> held_up fate_of z m -> rtc fstep z z' ->
  (exists m', y_marsh z' !! q = Some m' /\ m_phase m' = m_phase m /\ held_up fate_of z' m') /\ y_wg z' <> 0.
Proof.
  intros Hr M H S.
  assert (G : freachable z' /\ exists m', y_marsh z' !! q = Some m' /\ m_phase m' = m_phase m /\ held_up fate_of z' m').
  { revert m M H. induction S as [z|z z1 z2 S1 _ IH]; intros m M H; [split; [done|by exists m]|].
    destruct (held_step z z1 q m Hr M H S1) as (m1 & M1 & P1 & H1). destruct (IH ltac:(by eapply rtc_r) m1 M1 H1) as (R2 & m2 & M2 & P2 & H2).
    split; [done|]. exists m2. split; [done|]. split; [congruence|done]. }
  destruct G as (R2 & m2 & M2 & P2 & H2). split; [by exists m2|]. intros W. pose proof (fault_wait z' R2 W) as (_ & _ & _ & _ & F).
  rewrite Forall_lookup in F. destruct (F q m2 M2) as (X & _). unfold held_up in H2. by rewrite X in H2.
Qed.
End Cut.

(** ** Schedules, for the examples *)
Section Scheduler.
Variables (w : world) (cf : config) (cap : nat) (anon : bytes -> bytes) (line : archival -> bytes) (hline : metadata -> bytes).
Variable fate_of : nat -> fate.
Notation fstep := (fstep w cf cap anon line hline fate_of).
Definition fmarsh_move (q : nat) (m : marsh) (y : sys) : option sys :=
  match m_phase m with
  | Holding (None, wr) => match fclose fate_of wr (y_files y) with Some fs => Some (goes_to q m Idle (with_files fs y)) | None => None end
  | Rendered c b wr => match fwrite fate_of wr b (y_files y) with Some fs => Some (goes_to q m (Newline c wr) (with_files fs y)) | None => None end
  | Newline c wr => match fwrite fate_of wr nl (y_files y) with Some fs => Some (goes_to q m Idle (with_files fs y)) | None => None end
  | _ => marsh_move anon line q m y
  end.
Definition fsaver_move (y : sys) : option sys :=
  match s_log (y_saver y) !! y_pc y with
  | Some a => match fexec cap hline fate_of a y with Some y' => Some (with_pc (S (y_pc y)) y') | None => None end
  | None => saver_move w cf cap hline y
  end.
Definition fmove (who : option nat) (y : sys) : option sys :=
  if aliveb y then
    match who with
    | None => fsaver_move y
    | Some q => match y_marsh y !! q with Some m => fmarsh_move q m y | None => None end
    end
  else None.
Lemma fmove_step who y y' : fmove who y = Some y' -> fstep y y'.
Proof.
  unfold fmove. destruct (aliveb y) eqn:A; [|discriminate]. apply aliveb_alive in A. destruct who as [q|].
  - destruct (y_marsh y !! q) as [m|] eqn:M; [|discriminate]. unfold fmarsh_move, marsh_move. destruct (m_phase m) as [|[[c|] wr]|c wr|c b wr|c wr|] eqn:Ph.
    + destruct (m_chan m) as [|t ts] eqn:C; [destruct (m_closed m) eqn:Cl; [|discriminate]|]; intros [= <-]; [by eapply fs_finish|rewrite <- Cl || idtac; by eapply fs_take].
    + destruct (anonymize anon _) as [raw|e| |] eqn:R; intros H; [| |discriminate H|discriminate H]; injection H as <-.
      * eapply fs_anon; [exact A|exact M|exact Ph|exact R].
      * eapply fs_skip; [exact A|exact M|exact Ph|exact R].
    + destruct (fclose _ _ _) eqn:E; [|discriminate]. intros [= <-]. by eapply fs_close.
    + intros [= <-]. by eapply fs_render.
    + destruct (fwrite _ _ _ _) eqn:E; [|discriminate]. intros [= <-]. by eapply fs_write.
    + destruct (fwrite _ _ _ _) eqn:E; [|discriminate]. intros [= <-]. by eapply fs_newline.
    + discriminate.
  - unfold fsaver_move, saver_move. destruct (s_log (y_saver y) !! y_pc y) as [a|] eqn:L.
    + destruct (fexec cap hline fate_of a y) eqn:E; [|discriminate]. intros [= <-]. by eapply fs_act.
    + destruct (Nat.eqb_spec (y_pc y) (length (s_log (y_saver y)))) as [E|]; [|discriminate]. destruct (y_jobs y) as [|j js] eqn:J; [discriminate|].
      intros [= <-]. eapply fs_job; [exact A|exact E|exact J|]. intros c. apply sees_refl.
Qed.
Fixpoint ffirst_move (l : list (option nat)) (y : sys) : option sys :=
  match l with
  | [] => None
  | who :: l' => match fmove who y with Some y' => Some y' | None => ffirst_move l' y end
  end.
Fixpoint fschedule (pick : nat -> list (option nat)) (n : nat) (y : sys) : sys :=
  match n with
  | O => y
  | S n' => match ffirst_move (pick n) y with Some y' => fschedule pick n' y' | None => y end
  end.
Lemma ffirst_move_step l y y' : ffirst_move l y = Some y' -> fstep y y'.
Proof. induction l as [|who l IH]; [discriminate|]. cbn. destruct (fmove who y) eqn:E; [intros [= <-]; by eapply fmove_step|exact IH]. Qed.
Lemma fschedule_steps pick n y : rtc fstep y (fschedule pick n y).
Proof.
  revert y. induction n as [|n IH]; intros y; [apply rtc_refl|]. cbn [fschedule]. destruct (ffirst_move (pick (S n)) y) as [y'|] eqn:E; [|apply rtc_refl].
  eapply rtc_l; [by eapply ffirst_move_step|apply IH].
Qed.
(** Nobody can move. *)
Lemma alive_aliveb y : alive y -> aliveb y = true.
Proof.
  unfold alive, aliveb. intros [P D]. rewrite P. cbn. destruct (s_dead (y_saver y)) eqn:E; [|done]. destruct (Nat.eqb_spec (y_pc y) (length (s_log (y_saver y)))); [|done].
  exfalso. by apply D.
Qed.
Lemma step_fmove y y' : fstep y y' -> exists who, who ∈ None :: map Some (seq 0 (length (y_marsh y))) /\ fmove who y <> None.
Proof.
  assert (Q : forall q m, y_marsh y !! q = Some m -> Some q ∈ None :: map Some (seq 0 (length (y_marsh y)))).
  { intros q m M. right. apply elem_of_list_In, in_map, in_seq. apply lookup_lt_Some in M. lia. }
  intros S. remember y as x eqn:Ex in S.
  destruct S as [x j js view A Pc J V|x a y' A L E|x q m t ts A M Ph C|x q m A M Ph C Cl|x q m i fs A M Ph E|x q m c i raw A M Ph R
    |x q m c i e A M Ph R|x q m c i A M Ph|x q m c b i fs A M Ph E|x q m c i fs A M Ph E]; subst x.
  1: { exists None. split; [by left|]. unfold fmove. rewrite alive_aliveb by done. unfold fsaver_move, saver_move.
       rewrite Pc, lookup_ge_None_2 by done. rewrite Nat.eqb_refl, J. done. }
  1: { exists None. split; [by left|]. unfold fmove. rewrite alive_aliveb by done. unfold fsaver_move. by rewrite L, E. }
  all: exists (Some q); split; [by eapply Q|]; unfold fmove; rewrite alive_aliveb by done; rewrite M; unfold fmarsh_move, marsh_move; rewrite Ph.
  - by rewrite C.
  - by rewrite C, Cl.
  - by rewrite E.
  - by rewrite R.
  - by rewrite R.
  - done.
  - by rewrite E.
  - by rewrite E.
Qed.
Lemma stuckb_stuck y : forallb (fun who => match fmove who y with None => true | Some _ => false end) (None :: map Some (seq 0 (length (y_marsh y)))) = true ->
  stuck fstep y.
Proof.
  intros H y' S. destruct (step_fmove y y' S) as (who & Hw & N). rewrite forallb_forall in H. apply elem_of_list_In in Hw. specialize (H who Hw).
  by destruct (fmove who y).
Qed.
End Scheduler.
