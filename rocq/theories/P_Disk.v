(** Property C72: the files on disk. *)
From Coq Require Import Strings.String.
From stdpp Require Import gmap relations.
From Coq Require Import NArith ZArith Lia.
From Verif Require Import GoBase GoBaseFacts GoTime Netlink SpecNetlink SpecCompare Cache Saver SpecSaver SpecPath PathFacts System SpecSystem SaverSteps SaverFiles SaverHistory
  SystemInv SystemFiles SystemRefine SystemHidden RaceFacts Disk SpecDisk DiskFacts Samples P_Compare P_Saver P_System.
Local Open Scope list_scope.
Local Instance byte_dec : EqDecision byte := Byte.byte_eq_dec.

(** ** One run *)

(** If no path is used twice, then at every moment the file at the path of a writer
    is what its compressor has put out, and all of it once the writer is closed. *)
Theorem C72_disk : forall w cf cap anon line hline z, (forall x, length (anon x) = length x) -> 1 <= nmarsh cf ->
  forall bs, all_comparable cf bs -> NoDup (paths (s_log (message_saver_loop w cf bs))) ->
  forall k0 y k, disk_reachable w cf cap anon line hline z bs k0 (y, k) -> forall wr f, y_files y !! wr = Some f ->
  d_file k (f_path f) = Some (d_out k wr) /\ (f_open f = false -> d_file k (f_path f) = Some (z (f_data f))).
Proof.
  intros w cf cap anon line hline z Hl Hn bs Hc Nd k0 y k R wr f F.
  assert (E : d_file k (f_path f) = Some (d_out k wr)).
  { apply (apart_disk w cf cap anon line hline z Hl Hn bs k0 (y, k) R); [|exact F].
    intros wr1 wr2 f1 f2 F1 F2 E. pose proof (disk_sys w cf cap anon line hline z bs k0 _ R) as Ry.
    apply (paths_unique _ wr1 wr2 (f_path f1) Nd); [|rewrite E].
    - exact (proj1 (file_prefix w cf cap anon line hline Hl Hn bs Hc y Ry wr1 f1 F1)).
    - exact (proj1 (file_prefix w cf cap anon line hline Hl Hn bs Hc y Ry wr2 f2 F2)). }
  split; [exact E|]. intros O. rewrite E. f_equal. exact (ended_output w cf cap anon line hline z Hl Hn bs k0 (y, k) R wr f F O).
Qed.
Print Assumptions C72_disk.

(** When Done.Wait() has returned, every file that was created is there, with the
    compressed form of all of its lines. *)
Theorem C72_final : forall w cf cap anon line hline z, (forall x, length (anon x) = length x) -> 1 <= nmarsh cf ->
  forall bs, all_comparable cf bs -> Forall (parses cf) bs -> fair_order w -> NoDup (paths (s_log (message_saver_loop w cf bs))) ->
  forall k0 y k, disk_reachable w cf cap anon line hline z bs k0 (y, k) -> y_wg y = 0 ->
  forall wr p, ACreate wr p ∈ s_log (message_saver_loop w cf bs) ->
  d_file k p = Some (z (contents anon line hline wr (s_log (message_saver_loop w cf bs)))).
Proof.
  intros w cf cap anon line hline z Hl Hn bs Hc Hp Hf Nd k0 y k R Wg wr p I.
  pose proof (disk_sys w cf cap anon line hline z bs k0 _ R) as Ry. cbn [fst] in Ry.
  destruct (C30_wait w cf cap anon line hline Hl Hn bs Hc Hp Hf y Ry Wg) as [Fin A].
  destruct (C28_final w cf cap anon line hline Hl Hn bs Hc y Ry Fin) as [_ B].
  assert (X : exists f, y_files y !! wr = Some f /\ f_path f = p).
  { rewrite (B wr). set (L := s_log (message_saver_loop w cf bs)) in *.
    assert (J : ACreate wr p ∈ file_actions wr L) by (unfold file_actions; apply elem_of_list_In, List.filter_In; split; [by apply elem_of_list_In | cbn; by rewrite Nat.eqb_refl]).
    destruct (file_histories w cf (message_saver_loop w cf bs) wr (message_saver_loop_steps w cf bs)) as [E|(cl & q & c & md & recs & path & E & _)]; fold L in E; rewrite E in J; [by apply elem_of_nil in J|].
    unfold final_file. rewrite E. cbn. eexists. split; [reflexivity|]. cbn.
    apply elem_of_cons in J as [J|J]; [by injection J|]. exfalso. apply elem_of_cons in J as [J|J]; [discriminate J|].
    apply elem_of_app in J as [J|J]; [apply elem_of_list_fmap in J as (m & J & _); discriminate J|].
    destruct cl; [apply elem_of_list_singleton in J; discriminate J | by apply elem_of_nil in J]. }
  destruct X as (f & F & <-). destruct (A wr f F) as [O D]. rewrite <- D.
  by apply (C72_disk w cf cap anon line hline z Hl Hn bs Hc Nd k0 y k R wr f F).
Qed.
Print Assumptions C72_final.

(** Everything else stays as it was. *)
Theorem C72_untouched : forall w cf cap anon line hline z, (forall x, length (anon x) = length x) -> 1 <= nmarsh cf ->
  forall bs, all_comparable cf bs -> forall k0 y k, disk_reachable w cf cap anon line hline z bs k0 (y, k) ->
  forall p, p ∉ paths (s_log (message_saver_loop w cf bs)) -> d_file k p = k0 p.
Proof.
  intros w cf cap anon line hline z Hl Hn bs Hc k0 y k R p N.
  apply (untouched w cf cap anon line hline z Hl Hn bs k0 (y, k) R). intros wr f F E. apply N, paths_in. exists wr. rewrite <- E.
  exact (proj1 (file_prefix w cf cap anon line hline Hl Hn bs Hc y (disk_sys w cf cap anon line hline z bs k0 _ R) wr f F)).
Qed.
Print Assumptions C72_untouched.

(** No path is used twice if no connection is opened twice. *)
Theorem C72_distinct : forall w cf bs, NoDup (openings (s_log (message_saver_loop w cf bs))) -> NoDup (paths (s_log (message_saver_loop w cf bs))).
Proof. intros w cf bs. apply (once_distinct w cf). apply message_saver_loop_steps. Qed.
Print Assumptions C72_distinct.

(** A path that is used again: the file is emptied, and if no writer of it is open
    any more, and it is not created a third time, it is the file of the new writer
    alone from then on. *)
Theorem C72_reused : forall w cf cap anon line hline z, (forall x, length (anon x) = length x) -> 1 <= nmarsh cf ->
  forall bs k0 y k y1 k1 y2 k2 wr f, disk_reachable w cf cap anon line hline z bs k0 (y, k) ->
  dstep w cf cap anon line hline z (y, k) (y1, k1) -> y_files y !! wr = None -> y_files y1 !! wr = Some f ->
  (forall wr' f', y_files y !! wr' = Some f' -> f_path f' = f_path f -> f_open f' = false) ->
  rtc (dstep w cf cap anon line hline z) (y1, k1) (y2, k2) ->
  (forall wr' f', y_files y2 !! wr' = Some f' -> f_path f' = f_path f -> wr' = wr \/ is_Some (y_files y !! wr')) ->
  d_file k1 (f_path f) = Some [] /\ d_file k2 (f_path f) = Some (d_out k2 wr) /\
  forall f2, y_files y2 !! wr = Some f2 -> f_open f2 = false -> d_file k2 (f_path f) = Some (z (f_data f2)).
Proof.
  intros w cf cap anon line hline z Hl Hn bs k0 y k y1 k1 y2 k2 wr f R H F0 F1 A H2 Only.
  assert (C : creates y y1 wr (f_path f) /\ d_file k1 (f_path f) = Some []).
  { inversion H as [y' y'' k' S Cl|y' k' wr' f' x F' O']; subst; [|congruence].
    destruct (step_files w cf cap anon line hline _ _ S) as [(wr1 & p1 & C1 & E)|[N K]].
    - destruct (decide (wr = wr1)) as [->|Ne]; [|rewrite E, lookup_insert_ne in F1 by done; congruence].
      rewrite E, lookup_insert in F1. injection F1 as <-. split; [exact C1|]. rewrite (at_once_create _ _ _ _ _ C1). cbn. by rewrite put_same.
    - pose proof (K wr) as X. by rewrite F0, F1 in X. }
  destruct C as [C E1]. split; [exact E1|].
  destruct (reused w cf cap anon line hline z Hl Hn bs k0 y k y1 k1 (y2, k2) wr (f_path f) R H C A H2 Only) as (_ & D & _). cbn [snd] in D.
  split; [exact D|]. intros f2 F2 O2. rewrite D. f_equal.
  assert (R2 : disk_reachable w cf cap anon line hline z bs k0 (y2, k2)) by (eapply rtc_transitive; [eapply rtc_r; [exact R | exact H] | exact H2]).
  exact (ended_output w cf cap anon line hline z Hl Hn bs k0 (y2, k2) R2 wr f2 F2 O2).
Qed.
Print Assumptions C72_reused.

(** ** Several runs, one after the other in the same directory *)

(** Two runs use the same path only within one boot of one machine, on one day, and
    for a connection that is open in both. *)
Theorem C72_runs : forall w w' cf cf' bs bs' p,
  let L := s_log (message_saver_loop w cf bs) in let L' := s_log (message_saver_loop w' cf' bs') in
  x2f ∉ uuid_prefix w -> x2f ∉ uuid_prefix w' -> (forall t, t ∈ times L \/ t ∈ times L' -> (-62167219200000000000 <= t)%Z) ->
  p ∈ paths L -> p ∈ paths L' ->
  uuid_prefix w = uuid_prefix w' /\ (exists c, c ∈ openings L /\ c ∈ openings L') /\
  exists t t' x, t ∈ times L /\ t' ∈ times L' /\ date_at t x /\ date_at t' x.
Proof.
  intros w w' cf cf' bs bs' p L L' S S' T I I'.
  assert (G : forall w cf bs, p ∈ paths (s_log (message_saver_loop w cf bs)) -> exists k t j, k ∈ openings (s_log (message_saver_loop w cf bs)) /\
    (k < two64)%N /\ t ∈ times (s_log (message_saver_loop w cf bs)) /\ p = file_path (format_date t) (from_cookie (uuid_prefix w) k) j).
  { clear. intros w cf bs I. apply paths_in in I as (wr & I). apply elem_of_list_split in I as (l1 & l2 & E).
    destruct (reached_oinv w cf _ (message_saver_loop_steps w cf bs)) as (_ & _ & C).
    destruct (C l1 wr p l2 E) as (k & j & t & id & now & Lt & A & B & Ep).
    exists k, (if (0 <? j)%nat then now else t), j. rewrite E. split.
    - apply openings_in. exists t, id. apply elem_of_app. by left.
    - split; [done|]. split; [|exact Ep]. unfold times. rewrite omap_app. apply elem_of_app. left. apply elem_of_list_omap.
      destruct (0 <? j)%nat; [exists (ANow now) | exists (AOpen t k id)]; done. }
  destruct (G w cf bs I) as (k & t & j & K & Lt & It & Ep). destruct (G w' cf' bs' I') as (k' & t' & j' & K' & Lt' & It' & Ep'). fold L in It, K. fold L' in It', K'.
  assert (Tt : (-62167219200000000000 <= t)%Z) by (apply T; by left). assert (Tt' : (-62167219200000000000 <= t')%Z) by (apply T; by right).
  pose proof (path_ok (uuid_prefix w) t k j Tt Lt) as A. pose proof (path_ok (uuid_prefix w') t' k' j' Tt' Lt') as A'. rewrite <- Ep in A. rewrite <- Ep' in A'.
  assert (Q : ~ In x2f (uuid_prefix w)) by (intros Q; apply S, elem_of_list_In, Q). assert (Q' : ~ In x2f (uuid_prefix w')) by (intros Q'; apply S', elem_of_list_In, Q').
  destruct (path_tells _ _ _ _ _ _ _ _ _ Tt Tt' Q Q' A A') as (<- & (x & X & X') & <- & _).
  split; [done|]. split; [by exists k|]. exists t, t', x. done.
Qed.
Print Assumptions C72_runs.

(** So the files of one run outlive the next run, unless a connection of the one
    is a connection of the other on the same day. *)
Theorem C72_next_run : forall w w' cf cf' cap cap' anon anon' line line' hline hline' z, (forall x, length (anon x) = length x) -> (forall x, length (anon' x) = length x) ->
  1 <= nmarsh cf -> 1 <= nmarsh cf' -> forall bs bs', all_comparable cf bs -> Forall (parses cf) bs -> fair_order w -> all_comparable cf' bs' ->
  let L := s_log (message_saver_loop w cf bs) in let L' := s_log (message_saver_loop w' cf' bs') in
  NoDup (openings L) -> x2f ∉ uuid_prefix w -> x2f ∉ uuid_prefix w' -> (forall t, t ∈ times L \/ t ∈ times L' -> (-62167219200000000000 <= t)%Z) ->
  uuid_prefix w <> uuid_prefix w' \/ (forall c, c ∈ openings L -> c ∉ openings L') \/
    (forall t t' x, t ∈ times L -> t' ∈ times L' -> date_at t x -> ~ date_at t' x) ->
  forall k0 y k y' k', disk_reachable w cf cap anon line hline z bs k0 (y, k) -> y_wg y = 0 ->
  disk_reachable w' cf' cap' anon' line' hline' z bs' (d_file k) (y', k') ->
  forall wr p, ACreate wr p ∈ L -> d_file k' p = Some (z (contents anon line hline wr L)).
Proof.
  intros w w' cf cf' cap cap' anon anon' line line' hline hline' z Hl Hl' Hn Hn' bs bs' Hc Hp Hf Hc' L L' Nd S S' T D k0 y k y' k' R Wg R' wr p I.
  rewrite (C72_untouched w' cf' cap' anon' line' hline' z Hl' Hn' bs' Hc' (d_file k) y' k' R' p).
  - by apply (C72_final w cf cap anon line hline z Hl Hn bs Hc Hp Hf (C72_distinct w cf bs Nd) k0 y k R Wg).
  - intros I'. assert (Ip : p ∈ paths L) by (apply paths_in; by exists wr).
    destruct (C72_runs w w' cf cf' bs bs' p S S' T Ip I') as (E & (c & Ic & Ic') & t & t' & x & It & It' & X & X').
    destruct D as [D|[D|D]]; [by apply D | by apply (D c) | by apply (D t t' x)].
Qed.
Print Assumptions C72_next_run.

(** ** Cases.  The compressor of the cases puts everything out when it ends. *)
(** The first line of a file is its name and its start time. *)
Definition hline1 (m : metadata) : bytes := md_uuid m ++ dec (Z.to_N (md_start m)).
Definition shut_at_last (y y' : sys) (x : nat * file) : bool :=
  f_open x.2 && match y_files y' !! x.1 with Some f' => negb (f_open f') | None => false end.
Definition last_words (y y' : sys) (k : disk) : disk :=
  fold_right (fun x k => if shut_at_last y y' x then flush x.1 (f_path x.2) (f_data x.2) k else k) k (map_to_list (y_files y)).
Definition said_all (y y' : sys) (k : disk) : bool :=
  forallb (fun x => negb (shut_at_last y y' x) || bytes_eqb (d_out k x.1) (f_data x.2)) (map_to_list (y_files y)).
Section Player.
Variables (w : world) (cf : config).
Fixpoint play (pick : nat -> list (option nat)) (n : nat) (s : sys * disk) : sys * disk :=
  match n with
  | O => s
  | S n' => match first_move w cf 1 anon0 line0 hline1 (pick n) s.1 with
            | Some y' => let k := last_words s.1 y' s.2 in if said_all s.1 y' k then play pick n' (y', at_once s.1 y' k) else s
            | None => s
            end
  end.
Notation dsteps := (rtc (dstep w cf 1 anon0 line0 hline1 (fun x => x))).
Lemma last_words_steps y y' k : dsteps (y, k) (y, last_words y y' k).
Proof.
  unfold last_words. assert (G : forall l, (forall x, x ∈ l -> y_files y !! x.1 = Some x.2) ->
    dsteps (y, k) (y, fold_right (fun x k => if shut_at_last y y' x then flush x.1 (f_path x.2) (f_data x.2) k else k) k l)).
  { induction l as [|x l IH]; intros A; [apply rtc_refl|]. cbn [fold_right]. destruct (shut_at_last y y' x) eqn:E.
    - eapply rtc_r; [apply IH; intros x' I; apply A; by apply elem_of_cons; right|]. apply ds_flush; [apply A, elem_of_list_here|].
      unfold shut_at_last in E. by apply andb_true_iff in E as [E _].
    - apply IH. intros x' I. apply A. by apply elem_of_cons; right. }
  apply G. intros [i f] I. by apply elem_of_map_to_list in I.
Qed.
Lemma play_steps pick n : forall s, dsteps s (play pick n s).
Proof.
  induction n as [|n IH]; intros [y k]; [apply rtc_refl|]. cbn [play fst snd].
  destruct (first_move w cf 1 anon0 line0 hline1 (pick (S n)) y) as [y'|] eqn:F; [|apply rtc_refl].
  destruct (said_all y y' (last_words y y' k)) eqn:A; [|apply rtc_refl].
  eapply rtc_transitive; [apply (last_words_steps y y' k)|]. eapply rtc_l; [|apply IH].
  apply ds_run; [by eapply first_move_step|]. intros wr f f' F1 F2 O1 O2. unfold said_all in A. rewrite forallb_forall in A.
  assert (I : In (wr, f) (map_to_list (y_files y))) by (by apply elem_of_list_In, elem_of_map_to_list).
  apply A in I. unfold shut_at_last in I. cbn [fst snd] in I. rewrite O1, F2, O2 in I. cbn in I. by apply bytes_eqb_eq in I.
Qed.
End Player.
Definition nothing : bytes -> option bytes := fun _ => None.
Definition disk_run (bs : list block) (k0 : bytes -> option bytes) (pick : nat -> list (option nat)) (n : nat) : sys * disk :=
  play w0 cf0 pick n (initial cf0 bs, mkdisk k0 (fun _ => [])).
Lemma disk_run_reachable bs k0 pick n : disk_reachable w0 cf0 1 anon0 line0 hline1 (fun x => x) bs k0 (disk_run bs k0 pick n).
Proof. apply play_steps. Qed.

(** A connection that is missing from one poll. *)
Definition gap : list block := [blk 1 [conn_msg 7 10 20]; blk 2 [conn_msg 7 11 21]; blk 3 []; blk 4 []; blk 5 [conn_msg 7 12 22]; blk 6 []].
Notation log0 bs := (s_log (message_saver_loop w0 cf0 bs)).
Notation lines0 bs wr := (contents anon0 line0 hline1 wr (log0 bs)).
Lemma gap_ok : Forall (parses cf0) gap /\ all_comparable cf0 gap.
Proof. apply message_ok. vm_compute. reflexivity. Qed.
(** Nothing with the contents x is left in the files at the paths ps. *)
Definition nowhere (x : bytes) (k : disk) (ps : list bytes) : bool := forallb (fun q => negb (bool_decide (d_file k q = Some x))) ps.
Lemma nowhere_spec bs k0 pick n x : all_comparable cf0 bs -> (forall q, k0 q = Some x -> q ∈ paths (log0 bs)) -> nowhere x (disk_run bs k0 pick n).2 (paths (log0 bs)) = true ->
  forall q, d_file (disk_run bs k0 pick n).2 q <> Some x.
Proof.
  intros Hc A B q E. unfold nowhere in B. rewrite forallb_forall in B. destruct (decide (q ∈ paths (log0 bs))) as [I|N].
  - apply elem_of_list_In, B in I. rewrite bool_decide_eq_true_2 in I by exact E. discriminate I.
  - pose proof (disk_run_reachable bs k0 pick n) as R. rewrite (surjective_pairing (disk_run bs k0 pick n)) in R.
    rewrite (C72_untouched w0 cf0 1 anon0 line0 hline1 (fun x => x) anon0_len ltac:(cbn; lia) bs Hc k0 _ _ R q N) in E. by apply N, A.
Qed.

(** Two connections, each with a file of its own; and the file of another program. *)
Definition other : bytes -> option bytes := fun p => if bytes_eqb p (str "2020/05/01/other.zst") then Some (str "x") else None.
Example c72_case : NoDup (openings (log0 bs0)) /\ length (paths (log0 bs0)) = 2 /\ y_wg (disk_run bs0 other turns 400).1 = 0 /\
  map (fun p => option_map (@length byte) (d_file (disk_run bs0 other turns 400).2 p)) (str "2020/05/01/other.zst" :: paths (log0 bs0)) = [Some 1; Some 187; Some 114].
Proof. split; [apply (bool_decide_unpack _); vm_compute; exact I|]. vm_compute. auto. Qed.

(** The path of a connection that is missing from one poll is used twice; what had
    been written before is lost. *)
Theorem C72_lost_refuted : exists w cf cap anon line hline z bs y k wr p,
  (forall x, length (anon x) = length x) /\ 1 <= nmarsh cf /\ all_comparable cf bs /\ Forall (parses cf) bs /\ fair_order w /\
  disk_reachable w cf cap anon line hline z bs (fun _ => None) (y, k) /\ y_wg y = 0 /\
  ACreate wr p ∈ s_log (message_saver_loop w cf bs) /\ is_Some (d_file k p) /\
  forall q, d_file k q <> Some (z (contents anon line hline wr (s_log (message_saver_loop w cf bs)))).
Proof.
  exists w0, cf0, 1, anon0, line0, hline1, (fun x => x), gap, (disk_run gap nothing eager 400).1, (disk_run gap nothing eager 400).2, 0, (nth 0 (paths (log0 gap)) []).
  split; [exact anon0_len|]. split; [cbn; lia|]. split; [apply gap_ok|]. split; [apply gap_ok|]. split; [apply w0_fair|].
  split; [rewrite <- surjective_pairing; apply disk_run_reachable|]. split; [vm_compute; reflexivity|].
  split; [apply elem_of_list_In; vm_compute; tauto|]. split; [vm_compute; eauto|].
  apply nowhere_spec; [apply gap_ok | discriminate | vm_compute; reflexivity].
Qed.
Print Assumptions C72_lost_refuted.

(** If the first compressor is still at work when the path is used again, the file is
    in the end that of neither writer. *)
Theorem C72_mixed_refuted : exists w cf cap anon line hline z bs y k p,
  (forall x, length (anon x) = length x) /\ 1 <= nmarsh cf /\ all_comparable cf bs /\ Forall (parses cf) bs /\ fair_order w /\
  disk_reachable w cf cap anon line hline z bs (fun _ => None) (y, k) /\ y_wg y = 0 /\ p ∈ paths (s_log (message_saver_loop w cf bs)) /\
  forall wr, ACreate wr p ∈ s_log (message_saver_loop w cf bs) -> d_file k p <> Some (z (contents anon line hline wr (s_log (message_saver_loop w cf bs)))).
Proof.
  exists w0, cf0, 1, anon0, line0, hline1, (fun x => x), gap, (disk_run gap nothing lazy_ 400).1, (disk_run gap nothing lazy_ 400).2, (nth 0 (paths (log0 gap)) []).
  split; [exact anon0_len|]. split; [cbn; lia|]. split; [apply gap_ok|]. split; [apply gap_ok|]. split; [apply w0_fair|].
  split; [rewrite <- surjective_pairing; apply disk_run_reachable|]. split; [vm_compute; reflexivity|].
  split; [apply elem_of_list_In; vm_compute; tauto|]. intros wr I E.
  assert (J : wr ∈ omap (fun a => match a with ACreate wr _ => Some wr | _ => None end) (log0 gap)) by (apply elem_of_list_omap; eexists; split; [exact I | reflexivity]).
  assert (X : omap (fun a => match a with ACreate wr _ => Some wr | _ => None end) (log0 gap) = [0; 1]) by (vm_compute; reflexivity).
  rewrite X in J. apply (bool_decide_eq_true_2 _) in E. rewrite !elem_of_cons, elem_of_nil in J. destruct J as [->|[->|[]]]; vm_compute in E; discriminate E.
Qed.
Print Assumptions C72_mixed_refuted.
(** It begins as the second and ends as the first. *)
Example c72_mixture : d_file (disk_run gap nothing lazy_ 400).2 (nth 0 (paths (log0 gap)) []) = Some (lines0 gap 1 ++ skipn (length (lines0 gap 1)) (lines0 gap 0)).
Proof. vm_compute. reflexivity. Qed.

(** A path that is used again when the first writer is closed. *)
Example c72_reused_case : let p := nth 0 (paths (log0 gap)) [] in
  let s := disk_run gap nothing eager 61 in let s1 := play w0 cf0 eager 1 s in let s2 := play w0 cf0 eager 400 s1 in
  dstep w0 cf0 1 anon0 line0 hline1 (fun x => x) s s1 /\ y_files s.1 !! 1 = None /\ y_files s1.1 !! 1 = Some (mkfile p [] true) /\
  (forall wr' f', y_files s.1 !! wr' = Some f' -> f_path f' = p /\ f_open f' = false) /\ is_Some (y_files s.1 !! 0) /\
  (forall wr' f', y_files s2.1 !! wr' = Some f' -> wr' = 1 \/ is_Some (y_files s.1 !! wr')) /\
  y_wg s2.1 = 0 /\ d_file s.2 p = Some (lines0 gap 0) /\ d_file s2.2 p = Some (lines0 gap 1).
Proof.
  intros p s s1 s2. assert (C : Forall (fun x => f_path x.2 = p /\ f_open x.2 = false) (map_to_list (y_files s.1))) by (apply (bool_decide_unpack _); vm_compute; exact I).
  rewrite Forall_forall in C.
  split; [|split; [vm_compute; reflexivity|split; [vm_compute; reflexivity|split; [|split; [|split; [|split; [vm_compute; reflexivity|split; vm_compute; reflexivity]]]]]]].
  - assert (W : forall y', last_words s.1 y' s.2 = s.2).
    { intros y'. unfold last_words. assert (X : forall l, (forall x, x ∈ l -> f_open x.2 = false) ->
        fold_right (fun x k => if shut_at_last s.1 y' x then flush x.1 (f_path x.2) (f_data x.2) k else k) s.2 l = s.2).
      { induction l as [|x l IH]; intros X; [reflexivity|]. cbn [fold_right]. unfold shut_at_last at 1. rewrite (X x (elem_of_list_here _ _)). cbn [andb].
        apply IH. intros x' I. apply X. by apply elem_of_cons; right. }
      apply X. intros x I. by apply C. }
    assert (M : match first_move w0 cf0 1 anon0 line0 hline1 (eager 1) s.1 with Some y' => said_all s.1 y' (last_words s.1 y' s.2) | None => false end = true) by (vm_compute; reflexivity).
    subst s1. cbn [play]. destruct (first_move w0 cf0 1 anon0 line0 hline1 (eager 1) s.1) as [y'|] eqn:F; [|discriminate M]. rewrite M. clear s2. rewrite (W y').
    rewrite (surjective_pairing s) at 1. apply ds_run; [by eapply first_move_step|]. intros wr f f' E _ O _.
    apply elem_of_map_to_list in E. apply C in E. cbn in E. destruct E. congruence.
  - intros wr' f' E. apply elem_of_map_to_list in E. exact (C _ E).
  - vm_compute. eauto.
  - intros wr' f' E. assert (X : Forall (fun x => x.1 = 1 \/ x.1 = 0) (map_to_list (y_files s2.1))) by (apply (bool_decide_unpack _); vm_compute; exact I).
    rewrite Forall_forall in X. apply elem_of_map_to_list in E. apply X in E. cbn in E. destruct E as [->| ->]; [by left|]. right. vm_compute. eauto.
Qed.

(** A second run that does not see the connections of the first. *)
Definition later : list block := [blk 5 [conn_msg 9 10 20]; blk 6 []].
Example c72_next_case : NoDup (openings (log0 bs0)) /\ x2f ∉ uuid_prefix w0 /\ (forall t, t ∈ times (log0 bs0) \/ t ∈ times (log0 later) -> (-62167219200000000000 <= t)%Z) /\
  (forall c, c ∈ openings (log0 bs0) -> c ∉ openings (log0 later)) /\
  let s := disk_run bs0 other turns 400 in let s' := disk_run later (d_file s.2) turns 400 in
  y_wg s.1 = 0 /\ y_wg s'.1 = 0 /\ map (d_file s'.2) (paths (log0 bs0)) = [Some (lines0 bs0 0); Some (lines0 bs0 1)].
Proof.
  split; [apply (bool_decide_unpack _); vm_compute; exact I|]. split; [apply (bool_decide_unpack _); vm_compute; exact I|]. split; [|split].
  - intros t H. assert (A : Forall (fun t => 0 <= t)%Z (times (log0 bs0) ++ times (log0 later))) by (apply (bool_decide_unpack _); vm_compute; exact I).
    rewrite Forall_forall in A. specialize (A t (proj2 (elem_of_app _ _ _) H)). lia.
  - intros c. assert (A : Forall (fun c => c ∉ openings (log0 later)) (openings (log0 bs0))) by (apply (bool_decide_unpack _); vm_compute; exact I).
    rewrite Forall_forall in A. exact (A c).
  - vm_compute. auto.
Qed.

(** A program that is restarted while a connection lives on: what the first run had
    written about it is lost. *)
Theorem C72_restart_refuted : exists w cf cap anon line hline z bs y k bs' y' k' wr p,
  (forall x, length (anon x) = length x) /\ 1 <= nmarsh cf /\ all_comparable cf bs /\ Forall (parses cf) bs /\ all_comparable cf bs' /\ Forall (parses cf) bs' /\ fair_order w /\
  NoDup (openings (s_log (message_saver_loop w cf bs))) /\ NoDup (openings (s_log (message_saver_loop w cf bs'))) /\
  disk_reachable w cf cap anon line hline z bs (fun _ => None) (y, k) /\ y_wg y = 0 /\
  disk_reachable w cf cap anon line hline z bs' (d_file k) (y', k') /\ y_wg y' = 0 /\
  ACreate wr p ∈ s_log (message_saver_loop w cf bs) /\ d_file k p = Some (z (contents anon line hline wr (s_log (message_saver_loop w cf bs)))) /\
  forall q, d_file k' q <> Some (z (contents anon line hline wr (s_log (message_saver_loop w cf bs)))).
Proof.
  set (bs' := [blk 5 [conn_msg 7 12 22]; blk 6 []]). assert (Ok : Forall (parses cf0) bs' /\ all_comparable cf0 bs') by (apply message_ok; vm_compute; reflexivity).
  set (s := disk_run bs0 nothing eager 400). set (s' := disk_run bs' (d_file s.2) eager 400).
  exists w0, cf0, 1, anon0, line0, hline1, (fun x => x), bs0, s.1, s.2, bs', s'.1, s'.2, 0, (nth 0 (paths (log0 bs0)) []).
  split; [exact anon0_len|]. split; [cbn; lia|]. split; [apply bs0_ok|]. split; [apply bs0_ok|]. split; [apply Ok|]. split; [apply Ok|]. split; [apply w0_fair|].
  split; [apply (bool_decide_unpack _); vm_compute; exact I|]. split; [apply (bool_decide_unpack _); vm_compute; exact I|].
  split; [rewrite <- surjective_pairing; apply disk_run_reachable|]. split; [vm_compute; reflexivity|].
  split; [rewrite <- surjective_pairing; apply disk_run_reachable|]. split; [vm_compute; reflexivity|].
  split; [apply elem_of_list_In; vm_compute; tauto|]. split; [vm_compute; reflexivity|].
  apply nowhere_spec; [apply Ok | | vm_compute; reflexivity]. intros q E.
  destruct (decide (q ∈ paths (log0 bs0))) as [J|N].
  - assert (A : Forall (fun q => d_file s.2 q = Some (lines0 bs0 0) -> q ∈ paths (log0 bs')) (paths (log0 bs0))) by (apply (bool_decide_unpack _); vm_compute; exact I).
    rewrite Forall_forall in A. exact (A q J E).
  - pose proof (disk_run_reachable bs0 nothing eager 400) as R. fold s in R. rewrite (surjective_pairing s) in R.
    rewrite (C72_untouched w0 cf0 1 anon0 line0 hline1 (fun x => x) anon0_len ltac:(cbn; lia) bs0 (proj2 bs0_ok) nothing _ _ R q N) in E. discriminate E.
Qed.
Print Assumptions C72_restart_refuted.
