(** Byte totals and throughput reports of the saver (C25, C26). *)
From stdpp Require Import gmap.
From Coq Require Import NArith ZArith Lia.
From Verif Require Import GoBase GoBaseFacts GoTime Inetdiag Netlink SpecNetlink SpecCompare RecordFacts CompareFacts
  Cache SpecCache CacheFacts Saver SpecSaver SpecTotals SaverSteps SaverFiles SaverJobs SaverBlocks SaverRuns SaverCounts SaverHistory.

(** ** Reports, in every environment *)
Definition inert (a : action) : bool := negb (is_report a).
Lemma reports_app l1 l2 : reports (l1 ++ l2) = reports l1 ++ reports l2.
Proof. apply List.filter_app. Qed.
Lemma observed_sent_app l1 l2 : observed_sent (l1 ++ l2) = observed_sent l1 ++ observed_sent l2.
Proof. apply omap_app. Qed.
Lemma observed_recv_app l1 l2 : observed_recv (l1 ++ l2) = observed_recv l1 ++ observed_recv l2.
Proof. apply omap_app. Qed.
Lemma sum_N_app l1 l2 : sum_N (l1 ++ l2) = (sum_N l1 + sum_N l2)%N.
Proof. induction l1 as [|x l1 IH]; [reflexivity|]. cbn [sum_N foldr app] in *. fold (sum_N (l1 ++ l2)). rewrite IH. fold (sum_N l1). lia. Qed.
Lemma inert_nothing e : forallb inert e = true -> reports e = [] /\ observed_sent e = [] /\ observed_recv e = [].
Proof.
  induction e as [|a e IH]; [done|]. cbn [forallb]. intros H. apply andb_prop in H as [H1 H2]. destruct (IH H2) as (E1 & E2 & E3).
  unfold reports, observed_sent, observed_recv in *. cbn. rewrite E1, E2, E3. by destruct a.
Qed.

Section Reports.
Variables (w : world) (cf : config).
Local Notation st := (fun s => (s_closing s, s_ctotals s, s_loop s)).

(** The reported values are the sums of the observations. *)
Definition in_step (s : saver) : Prop :=
  (l_reported (s_loop s)).1 = sum_N (observed_sent (s_log s)) /\ (l_reported (s_loop s)).2 = sum_N (observed_recv (s_log s)) /\
  ((l_reported (s_loop s)).1 < two64)%N /\ ((l_reported (s_loop s)).2 < two64)%N.
Lemma in_step_inert s s' : only inert s s' -> l_reported (s_loop s') = l_reported (s_loop s) -> in_step s -> in_step s'.
Proof.
  intros (e & L & F) E (H1 & H2 & H3 & H4). destruct (inert_nothing e F) as (_ & E2 & E3).
  unfold in_step. by rewrite E, L, observed_sent_app, observed_recv_app, E2, E3, !app_nil_r.
Qed.


(** end_conn leaves the totals alone, also when it crashes. *)
Lemma end_conn_keeps k s : let s' := end_conn w cf k s in
  s_closing s' = s_closing s /\ s_ctotals s' = s_ctotals s /\ s_loop s' = s_loop s /\ s_cache s' = s_cache s /\ only inert s s'.
Proof.
  unfold end_conn, now. cbn. destruct (Nat.eqb _ 0).
  - cbn. repeat split. eexists. cbn. rewrite <- app_assoc. split; reflexivity.
  - destruct (s_conns s !! k) as [c|]; [destruct (cn_writer c)|]; cbn; repeat split; eexists; cbn; rewrite <- ?app_assoc; split; reflexivity.
Qed.

Definition final_stats (k : N) (m : cell) (s : saver) : N * N :=
  if negb (has_diag_info (c_ar m)) then match s_closing s !! k with Some st => st | None => (0, 0)%N end else get_stats (c_ar m).
Lemma close_one_totals k m s : s_dead s = false -> let s' := close_one w cf c_ar (k, m) s in
  s_closing s' = (if negb (has_diag_info (c_ar m)) then delete k (s_closing s) else s_closing s) /\
  s_ctotals s' = (if negb (has_diag_info (c_ar m))
                  then match s_closing s !! k with Some st => sub2 (s_ctotals s) st | None => s_ctotals s end else s_ctotals s) /\
  s_loop s' = (let l := s_loop s in mkloop (l_reported l) (add2 (l_closed l) (final_stats k m s)) (l_last l) (l_live l)) /\
  s_cache s' = s_cache s /\ only inert s s'.
Proof.
  intros Hd. unfold close_one, final_stats. rewrite Hd. cbn zeta. destruct (negb (has_diag_info (c_ar m))).
  - destruct (s_closing s !! k) as [x|] eqn:E.
    + lazymatch goal with |- context [end_conn w cf k ?s2] => destruct (end_conn_keeps k s2) as (A & B & C & D & F); set (s3 := end_conn w cf k s2) in * end.
      clearbody s3. cbn in A, B, C, D. destruct (s_dead s3); cbn; repeat split; try assumption; exact F.
    + lazymatch goal with |- context [end_conn w cf k ?s2] => destruct (end_conn_keeps k s2) as (A & B & C & D & F); set (s3 := end_conn w cf k s2) in * end.
      clearbody s3. cbn in A, B, C, D. rewrite delete_notin by exact E. destruct (s_dead s3); cbn; repeat split; try assumption; exact F.
  - lazymatch goal with |- context [end_conn w cf k ?s2] => destruct (end_conn_keeps k s2) as (A & B & C & D & F); set (s3 := end_conn w cf k s2) in * end.
    clearbody s3. cbn in A, B, C, D. destruct (s_dead s3); cbn; repeat split; try assumption; exact F.
Qed.
Lemma close_all_step rs : forall s, in_step s -> let s' := close_all w cf rs s in
  in_step s' /\ only inert s s' /\ l_last (s_loop s') = l_last (s_loop s) /\ l_live (s_loop s') = l_live (s_loop s).
Proof.
  induction rs as [|[k m] rs IH]; intros s Hi; [split; [exact Hi|]; split; [apply only_refl|done]|].
  cbn zeta. change (close_all w cf ((k, m) :: rs) s) with (close_all w cf rs (close_one w cf c_ar (k, m) s)).
  destruct (s_dead s) eqn:D.
  { unfold close_one at 1 2 3 4. rewrite D. apply IH. exact Hi. }
  destruct (close_one_totals k m s D) as (_ & _ & E & _ & F). cbn zeta in E. set (s1 := close_one w cf c_ar (k, m) s) in *. clearbody s1.
  assert (Hi1 : in_step s1) by (eapply in_step_inert; [exact F|by rewrite E|exact Hi]).
  destruct (IH s1 Hi1) as (I1 & I2 & I3 & I4). split; [exact I1|]. split; [eapply only_trans; eassumption|].
  rewrite I3, I4, E. done.
Qed.

Lemma accept_step P C r s : cache_is P C (s_cache s) -> 72 <= length (header r) -> s_dead s = false -> s_dead (accept w cf r s) = false ->
  in_step s -> let s' := accept w cf r s in cache_is P (C ++ [r]) (s_cache s') /\ in_step s' /\ only inert s s' /\ l_last (s_loop s') = l_last (s_loop s).
Proof.
  intros Hc Hf Hd Ha Hi. destruct (accept_general w cf P C r s Hc Hf Hd Ha) as (A1 & _ & _ & _ & A5 & e & L & F & _).
  assert (O : only inert s (accept w cf r s)).
  { exists ((if worth_saving P C r then [ASnapshot] else []) ++ e). split; [exact L|]. rewrite forallb_app. apply andb_true_intro.
    split; [by destruct (worth_saving P C r)|]. rewrite List.forallb_forall in *. intros a Ha'. specialize (F a Ha'). by destruct a. }
  cbn zeta. split; [exact A1|]. split; [|split; [exact O|by rewrite A5]]. eapply in_step_inert; [exact O|by rewrite A5|exact Hi].
Qed.
Lemma take_step P b s : cache_is P [] (s_cache s) -> in_step s -> s_dead (take_block w cf b s) = false ->
  let s' := take_block w cf b s in
  s_dead s = false /\ cache_is P (accepted cf b) (s_cache s') /\ in_step s' /\ only inert s s' /\ l_last (s_loop s') = l_last (s_loop s).
Proof.
  intros Hc Hi Ha.
  refine (take_block_ind w cf (fun C s' => cache_is P C (s_cache s') /\ in_step s' /\ only inert s s' /\ l_last (s_loop s') = l_last (s_loop s)) _ b s _ Ha).
  - intros C r s1 (I1 & I2 & I3 & I4) D Hf D'. destruct (accept_step P C r s1 I1 Hf D D' I2) as (J1 & J2 & J3 & J4).
    split; [exact J1|]. split; [exact J2|]. split; [eapply only_trans; eassumption|congruence].
  - split; [exact Hc|]. split; [exact Hi|]. split; [apply only_refl|done].
Qed.

Lemma report_one_spec total rep obs err s : (rep < two64)%N -> (total < two64)%N ->
  exists n, report_one total rep obs err s = (n, emit (expected_one rep total obs err) s) /\
    (expected_one rep total obs err = obs (total - rep)%N /\ n = total /\ (rep <= total)%N \/
     expected_one rep total obs err = err (total <? rep)%N /\ n = rep).
Proof.
  intros Hr Ht. unfold report_one, expected_one, max_step, most, u64_add, u64_sub. change (2 ^ 64)%N with two64 in *.
  assert (two64 = 18446744073709551616%N) as E by reflexivity.
  destruct (N.ltb_spec (rep + 12500000000) two64) as [W|W].
  - replace ((12500000000 + rep) mod two64)%N with (12500000000 + rep)%N by (symmetry; apply N.mod_small; lia).
    destruct (N.leb_spec rep total) as [L|L].
    + destruct (N.leb_spec total (rep + 12500000000)) as [L2|L2]; cbn [andb].
      * replace ((12500000000 + rep <? total)%N || (total <? rep)%N) with false
          by (symmetry; apply orb_false_intro; apply N.ltb_ge; lia).
        exists total. replace (((total + two64 - rep mod two64) mod two64)%N) with (total - rep)%N. { split; [reflexivity|]. left. done. }
        rewrite (N.mod_small rep) by exact Hr. replace (total + two64 - rep)%N with ((total - rep) + 1 * two64)%N by lia.
        rewrite N.mod_add by (rewrite E; lia). symmetry. apply N.mod_small. lia.
      * replace (12500000000 + rep <? total)%N with true by (symmetry; apply N.ltb_lt; lia). cbn [orb].
        exists rep. split; [reflexivity|]. by right.
    + replace (total <? rep)%N with true by (symmetry; apply N.ltb_lt; lia). rewrite orb_true_r. cbn [andb].
      exists rep. split; [reflexivity|]. by right.
  - rewrite andb_false_r. 
    assert (((12500000000 + rep) mod two64 = 12500000000 + rep - two64)%N) as ->.
    { replace (12500000000 + rep)%N with ((12500000000 + rep - two64) + 1 * two64)%N at 1 by lia.
      rewrite N.mod_add by (rewrite E; lia). apply N.mod_small. lia. }
    destruct (N.ltb_spec total rep) as [L|L].
    + rewrite orb_true_r. exists rep. split; [reflexivity|]. by right.
    + replace (12500000000 + rep - two64 <? total)%N with true by (symmetry; apply N.ltb_lt; lia).
      exists rep. split; [reflexivity|]. by right.
Qed.

(** The total a report is made for. *)
Definition total_of (s : saver) : N * N := add2 (add2 (l_closed (s_loop s)) (s_ctotals s)) (l_live (s_loop s)).
Lemma add2_lt a b : ((add2 a b).1 < two64)%N /\ ((add2 a b).2 < two64)%N.
Proof. unfold add2, u64_add. cbn. split; apply N.mod_lt; discriminate. Qed.

Lemma report_step t s : s_dead s = false -> in_step s -> let s' := report t s in
  in_step s' /\ l_last (s_loop s') = Z.max (l_last (s_loop s)) (unix t) /\ l_live (s_loop s') = (0, 0)%N /\
  l_closed (s_loop s') = l_closed (s_loop s) /\ s_ctotals s' = s_ctotals s /\ s_closing s' = s_closing s /\ s_cache s' = s_cache s /\
  exists e, s_log s' = s_log s ++ e /\ reports e = expected (s_log s) (total_of s) (l_last (s_loop s) <? unix t)%Z.
Proof.
  intros Hd (H1 & H2 & H3 & H4). unfold report. rewrite Hd. cbn zeta. fold (total_of s).
  destruct (add2_lt (add2 (l_closed (s_loop s)) (s_ctotals s)) (l_live (s_loop s))) as [T1 T2]. fold (total_of s) in T1, T2.
  destruct (Z.ltb_spec (l_last (s_loop s)) (unix t)) as [L|L].
  - destruct (report_one_spec (total_of s).1 (l_reported (s_loop s)).1 AObsSent AErrSent s H3 T1) as (n1 & -> & R1).
    lazymatch goal with |- context [report_one ?a ?b AObsRecv AErrRecv ?s1] =>
      destruct (report_one_spec a b AObsRecv AErrRecv s1 H4 T2) as (n2 & -> & R2) end.
    cbn [s_loop with_loop l_last l_live l_closed s_ctotals s_closing s_cache emit s_log].
    unfold expected, in_step. cbn [s_loop with_loop l_reported s_log emit fst snd].
    rewrite !observed_sent_app, !observed_recv_app. rewrite <- H1, <- H2.
    set (x1 := expected_one (l_reported (s_loop s)).1 _ _ _) in *. set (x2 := expected_one (l_reported (s_loop s)).2 _ _ _) in *.
    clearbody x1 x2. rewrite !sum_N_app, <- H1, <- H2.
    split; [|split; [lia|repeat split]].
    + destruct R1 as [(-> & -> & R1)|(-> & ->)], R2 as [(-> & -> & R2)|(-> & ->)];
        unfold observed_sent, observed_recv; cbn [omap list_omap app sum_N foldr]; repeat split; lia.
    + exists [x1; x2]. rewrite <- app_assoc. split; [reflexivity|].
      destruct R1 as [(-> & _)|(-> & _)], R2 as [(-> & _)|(-> & _)]; reflexivity.
  - cbn [s_loop with_loop l_last l_live l_closed s_ctotals s_closing s_cache s_log]. split; [by split|]. split; [lia|].
    repeat split. exists []. by rewrite app_nil_r.
Qed.
End Reports.

(** ** Histories, in every environment *)
Section Loop.
Variables (w : world) (cf : config).
Hypothesis Hfair : fair_order w.

(** One block, cut open before the report. *)
Definition before_report (b : block) (s : saver) : saver :=
  close_all w cf (end_round w (take_block w cf b s)).1 (end_round w (take_block w cf b s)).2.
Lemma block_cut P b s : cache_is P [] (s_cache s) -> in_step s -> s_dead (do_block w cf c_ar b s) = false ->
  s_dead s = false /\ s_dead (take_block w cf b s) = false /\
  exists rs s2, let s1 := take_block w cf b s in
    rs ≡ₚ map_to_list (end_cycle (s_cache s1)).1 /\
    s_closing s2 = s_closing s1 /\ s_ctotals s2 = s_ctotals s1 /\ s_loop s2 = s_loop s1 /\ s_dead s2 = false /\
    let s3 := close_all w cf rs s2 in
    s_dead s3 = false /\ s3 = before_report b s /\ do_block w cf c_ar b s = report (V4Time b) s3 /\
    in_step s3 /\ only inert s s3 /\ l_last (s_loop s3) = l_last (s_loop s).
Proof using Hfair.
  intros Hc Hi. rewrite do_block_eq. unfold before_report. destruct (s_dead (take_block w cf b s)) eqn:Hd.
  { rewrite (end_round_dead _ _ Hd). cbn [fst snd]. rewrite close_all_dead by exact Hd. rewrite report_dead, Hd. discriminate. }
  destruct (take_step w cf P b s Hc Hi Hd) as (D & C1 & I1 & O1 & L1). set (s1 := take_block w cf b s) in *. clearbody s1.
  destruct (end_round_spec w s1 Hfair Hd) as (rs & -> & Hp). cbn [fst snd]. cbn zeta. set (s2 := with_pos _ _). rewrite report_dead. intros Ha.
  split; [exact D|]. split; [reflexivity|]. exists rs, s2. split; [exact Hp|]. do 3 (split; [reflexivity|]). split; [exact Hd|].
  assert (O2 : only inert s1 s2) by (exists [ACacheSize (size (cur (s_cache s1)))]; split; reflexivity).
  assert (I2 : in_step s2) by (eapply in_step_inert; [exact O2|reflexivity|exact I1]).
  destruct (close_all_step w cf rs s2 I2) as (I3 & O3 & L3 & _).
  split; [exact Ha|]. split; [reflexivity|]. split; [reflexivity|]. split; [exact I3|]. split; [|rewrite L3; exact L1].
  eapply only_trans; [exact O1|]. eapply only_trans; [exact O2|exact O3].
Qed.

Definition seconds (bs : list block) : Z := foldl (fun m b => Z.max m (unix (V4Time b))) zero_unix bs.
Lemma due_seconds bs b : (seconds bs <? unix (V4Time b))%Z = due bs b.
Proof using.
  clear. unfold due, seconds. induction bs as [|b' bs IH] using rev_ind; [cbn; by rewrite andb_true_r|].
  rewrite foldl_app, forallb_app. cbn [foldl forallb]. rewrite andb_true_r, andb_assoc, <- IH.
  generalize (foldl (fun m b => Z.max m (unix (V4Time b))) zero_unix bs). intros m.
  destruct (Z.ltb_spec (Z.max m (unix (V4Time b'))) (unix (V4Time b))), (Z.ltb_spec m (unix (V4Time b))),
    (Z.ltb_spec (unix (V4Time b')) (unix (V4Time b))); cbn; lia || reflexivity.
Qed.

Lemma loop_step bs : s_dead (loop w cf bs new_saver) = false ->
  let s := loop w cf bs new_saver in
  cache_is (last_accepted cf bs) [] (s_cache s) /\ in_step s /\ l_last (s_loop s) = seconds bs /\ l_live (s_loop s) = (0, 0)%N.
Proof using Hfair.
  induction bs as [|b bs IH] using rev_ind; intros Hd.
  { cbn zeta. split; [apply cache_is_new|]. repeat split. }
  pose proof (loop_alive _ _ _ _ _ Hd) as Hd'. destruct (IH Hd') as (I1 & I2 & I3 & I4).
  destruct (loop_counted w cf Hfair _ Hd) as [Hc _]. cbn zeta. split; [exact Hc|]. clear Hc.
  rewrite loop_snoc in *. destruct (block_cut _ _ _ I1 I2 Hd) as (_ & _ & rs & s2 & _ & _ & _ & _ & _ & Da & _ & E & J & _ & L).
  rewrite E in *. destruct (report_step (V4Time b) _ Da J) as (K1 & K2 & K3 & _). split; [exact K1|]. split; [|exact K3].
  rewrite K2, L, I3. unfold seconds. by rewrite foldl_app.
Qed.

(** C26: what a block reports, for some total. *)
Lemma block_reports bs b : s_dead (loop w cf (bs ++ [b]) new_saver) = false ->
  exists e total, s_log (loop w cf (bs ++ [b]) new_saver) = s_log (loop w cf bs new_saver) ++ e /\
    reports e = expected (s_log (loop w cf bs new_saver)) total (due bs b).
Proof using Hfair.
  intros Hd. destruct (loop_step bs (loop_alive _ _ _ _ _ Hd)) as (I1 & I2 & I3 & I4). rewrite loop_snoc in *.
  destruct (block_cut _ _ _ I1 I2 Hd) as (_ & _ & rs & s2 & _ & _ & _ & _ & _ & Da & _ & E & J & (e1 & L1 & F1) & L). rewrite E in *.
  set (s3 := close_all w cf rs s2) in *. clearbody s3.
  destruct (report_step (V4Time b) _ Da J) as (_ & _ & _ & _ & _ & _ & _ & e & L2 & R).
  exists (e1 ++ e), (total_of s3). rewrite L2, L1, app_assoc. split; [reflexivity|].
  destruct (inert_nothing e1 F1) as (N1 & N2 & N3). rewrite reports_app, N1, R, L, I3, due_seconds. cbn [app].
  unfold expected. by rewrite L1, observed_sent_app, observed_recv_app, N2, N3, !app_nil_r.
Qed.
End Loop.

(** ** Sums modulo 2^64 *)
Definition eqm (a b : Z) : Prop := exists q, (a = b + q * 18446744073709551616)%Z.
Lemma eqm_refl a : eqm a a. Proof. exists 0%Z. lia. Qed.
Lemma eqm_trans a b c : eqm a b -> eqm b c -> eqm a c. Proof. intros [q H] [q' H']. exists (q + q')%Z. lia. Qed.
Lemma eqm_add a b c d : eqm a b -> eqm c d -> eqm (a + c) (b + d). Proof. intros [q H] [q' H']. exists (q + q')%Z. lia. Qed.
Lemma eqm_sub a b c d : eqm a b -> eqm c d -> eqm (a - c) (b - d). Proof. intros [q H] [q' H']. exists (q - q')%Z. lia. Qed.
Lemma eqm_mod x : eqm (Z.of_N (x mod two64)) (Z.of_N x).
Proof.
  exists (- Z.of_N (x / two64))%Z. pose proof (N.div_mod x two64 ltac:(discriminate)). change two64 with 18446744073709551616%N in *. lia.
Qed.
Lemma eqm_u64_add a b : eqm (Z.of_N (u64_add a b)) (Z.of_N a + Z.of_N b).
Proof. unfold u64_add. eapply eqm_trans; [apply eqm_mod|]. rewrite N2Z.inj_add. apply eqm_refl. Qed.
Lemma eqm_u64_sub a b : eqm (Z.of_N (u64_sub a b)) (Z.of_N a - Z.of_N b).
Proof.
  unfold u64_sub. eapply eqm_trans; [apply eqm_mod|]. destruct (eqm_mod b) as [q Hq].
  pose proof (N.mod_lt b two64 ltac:(discriminate)) as Hl. exists (1 - q)%Z.
  change two64 with 18446744073709551616%N in *. lia.
Qed.
Lemma eqm_small a b : eqm (Z.of_N a) (Z.of_N b) -> (a < two64)%N -> a = (b mod two64)%N.
Proof.
  intros [q Hq] Ha. change two64 with 18446744073709551616%N in *. apply N2Z.inj. rewrite N2Z.inj_mod.
  change (Z.of_N 18446744073709551616) with 18446744073709551616%Z. replace (Z.of_N b) with (Z.of_N a + (- q) * 18446744073709551616)%Z by lia.
  rewrite Z.mod_add by lia. symmetry. apply Z.mod_small. lia.
Qed.

Fixpoint sumZ {A} (f : A -> Z) (l : list A) : Z := match l with [] => 0%Z | x :: l' => (f x + sumZ f l')%Z end.
Lemma sumZ_app {A} (f : A -> Z) l1 l2 : sumZ f (l1 ++ l2) = (sumZ f l1 + sumZ f l2)%Z.
Proof. induction l1 as [|x l1 IH]; cbn [sumZ app]; lia. Qed.
Lemma sumZ_perm {A} (f : A -> Z) l1 l2 : l1 ≡ₚ l2 -> sumZ f l1 = sumZ f l2.
Proof. induction 1; cbn [sumZ]; lia. Qed.
Lemma sumZ_ext {A} (f g : A -> Z) l : (forall x, x ∈ l -> f x = g x) -> sumZ f l = sumZ g l.
Proof.
  induction l as [|x l IH]; intros H; [reflexivity|]. cbn [sumZ]. rewrite (H x) by constructor. rewrite IH; [reflexivity|].
  intros y Hy. apply H. by constructor.
Qed.
Lemma sumZ_map {A B} (f : B -> Z) (g : A -> B) l : sumZ f (g <$> l) = sumZ (fun x => f (g x)) l.
Proof. induction l as [|x l IH]; [reflexivity|]. cbn. by rewrite IH. Qed.
Lemma sumZ_split {A} (f : A -> Z) (Q : A -> Prop) `{forall x, Decision (Q x)} l :
  sumZ f l = (sumZ f (filter Q l) + sumZ f (filter (fun x => ~ Q x) l))%Z.
Proof.
  induction l as [|x l IH]; [reflexivity|]. rewrite !filter_cons. cbn [sumZ].
  destruct (decide (Q x)), (decide (~ Q x)); try tauto; cbn [sumZ]; lia.
Qed.
Lemma sumZ_zero {A} (f : A -> Z) l : (forall x, x ∈ l -> f x = 0%Z) -> sumZ f l = 0%Z.
Proof.
  induction l as [|x l IH]; intros H; [reflexivity|]. cbn [sumZ]. rewrite (H x) by constructor. rewrite IH; [reflexivity|].
  intros y Hy. apply H. by constructor.
Qed.

(** ** Disciplined histories (C25) *)
Lemma counts_stats r x : byte_counts r = Some x -> get_stats r = x /\ has_diag_info r = true.
Proof.
  unfold byte_counts. destruct (slot 2 r) as [i|] eqn:E; [|discriminate]. destruct (Nat.leb_spec 208 (length i)); [|discriminate].
  intros X. injection X as <-. split; [by apply get_stats_some|]. apply has_diag_info_iff. by eapply slot2_some.
Qed.
Lemma bare_info r : bare r <-> has_diag_info r = false.
Proof.
  unfold bare. pose proof (has_diag_info_iff r) as H. destruct (has_diag_info r).
  - split; intros H'; [|discriminate H']. exfalso. destruct H as [H _]. specialize (H eq_refl). lia.
  - split; [reflexivity|]. intros _. destruct (Nat.le_gt_cases (length (ar_attrs r)) 2) as [L|L]; [exact L|]. apply H in L. discriminate L.
Qed.
Lemma bare_counts r : has_diag_info r = false -> byte_counts r = None /\ get_stats r = (0, 0)%N.
Proof.
  intros H. assert (E : slot 2 r = None).
  { destruct (slot 2 r) as [i|] eqn:E; [|reflexivity]. apply slot2_some in E. apply has_diag_info_iff in E. congruence. }
  unfold byte_counts. rewrite E. split; [reflexivity|]. apply get_stats_none. rewrite E. discriminate.
Qed.
Lemma latest_nodup l r : NoDup (cookies_of l) -> r ∈ l -> latest (rec_cookie r) l = Some r.
Proof.
  unfold cookies_of. induction l as [|x l IH] using rev_ind; intros Hn Hin; [by apply elem_of_nil in Hin|].
  rewrite latest_snoc. rewrite fmap_app in Hn. apply NoDup_app in Hn as (H1 & H2 & _). apply elem_of_app in Hin as [Hin|Hin].
  - case_decide as E; [|by apply IH]. exfalso. apply (H2 (rec_cookie r)); [by apply elem_of_list_fmap_1|]. rewrite <- E. cbn. constructor.
  - apply elem_of_list_singleton in Hin as ->. by case_decide.
Qed.

Section Totals.
Variables (w : world) (cf : config).
Hypothesis Hfair : fair_order w.
Variable pr : N * N -> N.
Hypothesis pr_add : forall a b, pr (add2 a b) = u64_add (pr a) (pr b).
Hypothesis pr_sub : forall a b, pr (sub2 a b) = u64_sub (pr a) (pr b).
Hypothesis pr_zero : pr (0, 0)%N = 0%N.
Local Notation zp x := (Z.of_N (pr x)).
Lemma eqm_pr_add a b x y : eqm (zp a) x -> eqm (zp b) y -> eqm (zp (add2 a b)) (x + y).
Proof using pr_add. intros H1 H2. rewrite pr_add. eapply eqm_trans; [apply eqm_u64_add|]. by apply eqm_add. Qed.
Lemma eqm_pr_sub a b x y : eqm (zp a) x -> eqm (zp b) y -> eqm (zp (sub2 a b)) (x - y).
Proof using pr_sub. intros H1 H2. rewrite pr_sub. eapply eqm_trans; [apply eqm_u64_sub|]. by apply eqm_sub. Qed.

Section Round.
Variables (rh : list (list archival)).
Let P : list archival := match rh with P :: _ => P | [] => [] end.
Hypothesis HP1 : NoDup (cookies_of P).
Hypothesis HP2 : Forall (fun r => is_Some (byte_counts r) \/ bare r) P.
Let lc := last_counts rh.
Let f k := zp (lc k).

Lemma lc_none k : latest k P = None -> lc k = (0, 0)%N.
Proof. unfold lc, P. destruct rh as [|P' rh']; [reflexivity|]. cbn. by intros ->. Qed.
Lemma lc_info k o : latest k P = Some o -> has_diag_info o = true -> lc k = get_stats o.
Proof.
  intros H Hi. destruct (latest_Some _ _ _ H) as [_ Ho]. rewrite Forall_forall in HP2. destruct (HP2 o Ho) as [[x Hx]|Hb].
  - unfold lc, P in *. destruct rh as [|P' rh']; [discriminate H|]. cbn. rewrite H, Hx. symmetry. by apply counts_stats.
  - apply bare_info in Hb. congruence.
Qed.

(** r loses the TCP_INFO its predecessor had *)
Definition moves (r : archival) : bool :=
  negb (has_diag_info r) && match latest (rec_cookie r) P with Some o => has_diag_info o | None => false end.
Definition good (C : list archival) : Prop :=
  NoDup (cookies_of C) /\ Forall (fun r => is_Some (byte_counts r) \/ bare r) C /\
  forall o r, o ∈ P -> r ∈ C -> rec_cookie o = rec_cookie r -> bare o -> bare r.
Lemma good_snoc C r : good (C ++ [r]) -> good C /\ rec_cookie r ∉ cookies_of C.
Proof.
  intros (H1 & H2 & H3). unfold cookies_of in *. rewrite fmap_app in H1. apply NoDup_app in H1 as (N1 & N2 & _).
  apply Forall_app in H2 as [F1 _]. split; [split; [exact N1|split; [exact F1|]]|].
  - intros o x Ho Hx. apply H3; [exact Ho|]. apply elem_of_app. by left.
  - intros Hin. apply (N2 _ Hin). cbn. constructor.
Qed.

Definition taken (c0 : N * N) (C : list archival) (s : saver) : Prop :=
  eqm (zp (l_live (s_loop s))) (sumZ (fun r => zp (get_stats r)) C) /\ l_closed (s_loop s) = c0 /\
  eqm (zp (s_ctotals s)) (sumZ (fun r => f (rec_cookie r)) (filter (fun r => has_diag_info r = false) P)
                          + sumZ (fun r => f (rec_cookie r)) (filter (fun r => moves r = true) C)) /\
  (forall k x, s_closing s !! k = Some x -> x = lc k /\
     ((exists r, r ∈ P /\ rec_cookie r = k /\ has_diag_info r = false) \/ (exists r, r ∈ C /\ rec_cookie r = k /\ has_diag_info r = false))) /\
  (forall r, r ∈ P \/ r ∈ C -> has_diag_info r = false -> s_closing s !! rec_cookie r = None -> lc (rec_cookie r) = (0, 0)%N).

Lemma taken_step c0 C r s : cache_is P C (s_cache s) -> 72 <= length (header r) -> s_dead s = false -> s_dead (accept w cf r s) = false ->
  good (C ++ [r]) -> taken c0 C s -> taken c0 (C ++ [r]) (accept w cf r s).
Proof.
  intros Hc Hf Hd Ha Hg (T1 & T2 & T3 & T4 & T5).
  destruct (good_snoc _ _ Hg) as [_ Hnew]. destruct Hg as (_ & _ & Hg).
  destruct (accept_general w cf P C r s Hc Hf Hd Ha) as (_ & _ & A3 & A4 & A5 & _). clear Hf Ha Hd Hc.
  assert (Href : reference P C (rec_cookie r) = latest (rec_cookie r) P).
  { unfold reference. destruct (latest (rec_cookie r) C) eqn:E; [|reflexivity]. exfalso. apply Hnew. unfold cookies_of.
    apply latest_Some in E as [E1 E2]. rewrite <- E1. by apply elem_of_list_fmap_1. }
  assert (Hmv : moved P C r = if moves r then Some (lc (rec_cookie r)) else None).
  { unfold moved, moves. rewrite Href. destruct (latest (rec_cookie r) P) as [o|] eqn:E; [|by rewrite andb_false_r].
    destruct (negb (has_diag_info r)); [|reflexivity]. cbn [andb]. destruct (has_diag_info o) eqn:Eo; [|reflexivity].
    by rewrite (lc_info _ _ E Eo). }
  rewrite Hmv in A3, A4. unfold taken. rewrite A5. cbn [l_live l_closed].
  split; [rewrite sumZ_app; cbn [sumZ]; apply eqm_pr_add; [exact T1|rewrite Z.add_0_r; apply eqm_refl]|]. split; [exact T2|].
  rewrite filter_app, filter_cons, filter_nil.
  destruct (moves r) eqn:M.
  - rewrite decide_True by reflexivity. rewrite A3, A4, sumZ_app. cbn [sumZ]. split; [|split].
    + rewrite Z.add_0_r, Z.add_assoc. apply eqm_pr_add; [exact T3|apply eqm_refl].
    + intros k x Hk. apply lookup_insert_Some in Hk as [[<- <-]|[Hne Hk]].
      * split; [reflexivity|]. right. exists r. split; [apply elem_of_app; right; constructor|]. split; [reflexivity|].
        unfold moves in M. by destruct (has_diag_info r).
      * destruct (T4 k x Hk) as [E [X|(r' & R1 & R2 & R3)]]; (split; [exact E|]); [by left|]. right. exists r'.
        split; [apply elem_of_app; by left|]. by split.
    + intros r' Hr Hb Hn. apply lookup_insert_None in Hn as [Hn Hne]. apply T5; [|exact Hb|exact Hn].
      destruct Hr as [Hr|Hr]; [by left|]. apply elem_of_app in Hr as [Hr|Hr]; [by right|]. apply elem_of_list_singleton in Hr as ->. contradiction (Hne eq_refl).
  - rewrite decide_False by discriminate. rewrite app_nil_r, A3, A4. split; [exact T3|]. split.
    + intros k x Hk. destruct (T4 k x Hk) as [E [X|(r' & R1 & R2 & R3)]]; (split; [exact E|]); [by left|]. right. exists r'.
      split; [apply elem_of_app; by left|]. by split.
    + intros r' Hr Hb Hn. destruct Hr as [Hr|Hr]; [apply T5; [by left|exact Hb|exact Hn]|].
      apply elem_of_app in Hr as [Hr|Hr]; [apply T5; [by right|exact Hb|exact Hn]|]. apply elem_of_list_singleton in Hr as ->.
      unfold moves in M. rewrite Hb in M. cbn [negb andb] in M. destruct (latest (rec_cookie r) P) as [o|] eqn:E; [|by apply lc_none].
      destruct (latest_Some _ _ _ E) as [E1 E2]. rewrite <- E1 in *. apply T5; [by left|exact M|exact Hn].
Qed.

Lemma close_one_taken k m s x0 : s_dead s = false -> latest k P = Some (c_ar m) ->
  (forall x, s_closing s !! k = Some x -> x = lc k) -> (has_diag_info (c_ar m) = false -> s_closing s !! k = None -> lc k = (0, 0)%N) ->
  let s' := close_one w cf c_ar (k, m) s in
  eqm (zp (s_ctotals s)) x0 ->
  eqm (zp (s_ctotals s')) (x0 - (if has_diag_info (c_ar m) then 0 else f k)) /\
  eqm (zp (l_closed (s_loop s'))) (zp (l_closed (s_loop s)) + f k) /\ l_live (s_loop s') = l_live (s_loop s) /\
  forall k', s_closing s' !! k' = if decide (k' = k /\ has_diag_info (c_ar m) = false) then None else s_closing s !! k'.
Proof.
  intros Hd Hk H1 H2 s' Hx. destruct (close_one_totals w cf k m s Hd) as (A & B & C & _). fold s' in A, B, C. rewrite A, B, C.
  cbn zeta. cbn [l_closed l_live]. unfold final_stats. clear A B C. subst s'. unfold f.
  destruct (has_diag_info (c_ar m)) eqn:Hi; cbn [negb].
  - split; [by rewrite Z.sub_0_r|]. rewrite (lc_info k _ Hk Hi).
    split; [apply eqm_pr_add; apply eqm_refl|]. split; [reflexivity|]. intros k'. case_decide; [|reflexivity]. destruct H as [_ H]. discriminate H.
  - assert (D : forall k', delete k (s_closing s) !! k' = if decide (k' = k /\ false = false) then None else s_closing s !! k').
    { intros k'. case_decide as E; [destruct E as [-> _]; by rewrite lookup_delete|]. rewrite lookup_delete_ne; [reflexivity|]. intros ->. by apply E. }
    destruct (s_closing s !! k) as [x|] eqn:E.
    + rewrite (H1 x eq_refl). split; [apply eqm_pr_sub; [exact Hx|apply eqm_refl]|].
      split; [apply eqm_pr_add; apply eqm_refl|]. split; [reflexivity|]. exact D.
    + rewrite (H2 eq_refl eq_refl). rewrite pr_zero. split; [by rewrite Z.sub_0_r|].
      split; [|split; [reflexivity|exact D]]. replace (Z.of_N 0) with (zp (0, 0)%N) by (by rewrite pr_zero). apply eqm_pr_add; apply eqm_refl.
Qed.

Lemma close_all_taken : forall rs s x0 y0, s_dead (close_all w cf rs s) = false -> NoDup rs.*1 ->
  (forall k m, (k, m) ∈ rs -> latest k P = Some (c_ar m) /\ (forall x, s_closing s !! k = Some x -> x = lc k) /\
     (has_diag_info (c_ar m) = false -> s_closing s !! k = None -> lc k = (0, 0)%N)) ->
  eqm (zp (s_ctotals s)) x0 -> eqm (zp (l_closed (s_loop s))) y0 ->
  let s' := close_all w cf rs s in
  eqm (zp (s_ctotals s')) (x0 - sumZ (fun km => f km.1) (filter (fun km => has_diag_info (c_ar km.2) = false) rs)) /\
  eqm (zp (l_closed (s_loop s'))) (y0 + sumZ f rs.*1) /\ l_live (s_loop s') = l_live (s_loop s) /\
  (forall k x, s_closing s' !! k = Some x -> s_closing s !! k = Some x /\ forall m, (k, m) ∈ rs -> has_diag_info (c_ar m) = true) /\
  (forall k, k ∉ rs.*1 -> s_closing s' !! k = s_closing s !! k).
Proof.
  induction rs as [|[k m] rs IH]; intros s x0 y0 Hd Hn Hrs Hx Hy.
  { cbn. rewrite Z.sub_0_r, Z.add_0_r. split; [exact Hx|]. split; [exact Hy|]. split; [reflexivity|]. split; [|reflexivity].
    intros k x Hk. split; [exact Hk|]. intros m Hm. by apply elem_of_nil in Hm. }
  cbn zeta. change (close_all w cf ((k, m) :: rs) s) with (close_all w cf rs (close_one w cf c_ar (k, m) s)) in *.
  destruct (s_dead s) eqn:D.
  { exfalso. unfold close_one in Hd. rewrite D in Hd. rewrite close_all_dead in Hd by exact D. congruence. }
  destruct (Hrs k m ltac:(constructor)) as (R1 & R2 & R3).
  destruct (close_one_taken k m s x0 D R1 R2 R3 Hx) as (A1 & A2 & A3 & A4). set (s1 := close_one w cf c_ar (k, m) s) in *. clearbody s1.
  cbn in Hn. apply NoDup_cons in Hn as [Hn1 Hn2].
  assert (Y : eqm (zp (l_closed (s_loop s1))) (y0 + f k)).
  { eapply eqm_trans; [exact A2|]. apply eqm_add; [exact Hy|apply eqm_refl]. }
  assert (Hne : forall k' m', (k', m') ∈ rs -> k' <> k).
  { intros k' m' Hin ->. apply Hn1. by apply (elem_of_list_fmap_1 fst _ (k, m')). }
  destruct (IH s1 _ _ Hd Hn2 ltac:(intros k' m' Hin; rewrite A4; pose proof (Hne k' m' Hin); destruct (decide (k' = k /\ _)) as [[X _]|_]; [contradiction|];
    apply Hrs; by constructor) A1 Y) as (I1 & I2 & I3 & I4 & I5).
  rewrite filter_cons. cbn [snd]. split; [|split; [|split; [|split]]].
  - eapply eqm_trans; [exact I1|]. destruct (has_diag_info (c_ar m)).
    + rewrite decide_False by discriminate. rewrite Z.sub_0_r. apply eqm_refl.
    + rewrite decide_True by reflexivity. cbn [sumZ fst]. rewrite Z.sub_add_distr. apply eqm_refl.
  - cbn [fmap list_fmap fst sumZ]. rewrite Z.add_assoc. exact I2.
  - congruence.
  - intros k' x Hk'. destruct (I4 k' x Hk') as [J1 J2]. rewrite A4 in J1. destruct (decide (k' = k /\ _)) as [X|X]; [discriminate J1|].
    split; [exact J1|]. intros m' Hin. apply elem_of_cons in Hin as [Hin|Hin]; [|by apply J2].
    injection Hin as -> ->. destruct (has_diag_info (c_ar m)); [reflexivity|]. exfalso. by apply X.
  - intros k' Hk'. cbn in Hk'. apply not_elem_of_cons in Hk' as [X1 X2]. rewrite (I5 k' X2), A4. rewrite decide_False; [reflexivity|].
    intros [X _]. contradiction.
Qed.
End Round.

Definition head (rh : list (list archival)) : list archival := match rh with P :: _ => P | [] => [] end.
Lemma sum_cookies (f : N -> Z) l : sumZ (fun r => f (rec_cookie r)) l = sumZ f (rec_cookie <$> l).
Proof. by rewrite sumZ_map. Qed.
Lemma nodup_filter (Q : archival -> Prop) `{forall x, Decision (Q x)} l : NoDup (cookies_of l) -> NoDup (rec_cookie <$> filter Q l).
Proof.
  unfold cookies_of. induction l as [|x l IH]; [done|]. rewrite fmap_cons, filter_cons. intros Hn. apply NoDup_cons in Hn as [H1 H2].
  destruct (decide (Q x)); [|by apply IH]. rewrite fmap_cons. apply NoDup_cons. split; [|by apply IH].
  intros Hin. apply H1. apply elem_of_list_fmap in Hin as (y & -> & Hy). apply elem_of_list_filter in Hy as [_ Hy]. by apply elem_of_list_fmap_1.
Qed.

(** The book-keeping of ClosingTotals adds up. *)
Lemma closing_sum rh C (rs : list (N * cell)) :
  let P := head rh in let f k := zp (last_counts rh k) in
  NoDup (cookies_of P) -> NoDup (cookies_of C) ->
  (forall o r, o ∈ P -> r ∈ C -> rec_cookie o = rec_cookie r -> bare o -> bare r) ->
  NoDup rs.*1 -> (forall k m, (k, m) ∈ rs -> latest k C = None /\ latest k P = Some (c_ar m)) ->
  (forall k o, latest k C = None -> latest k P = Some o -> exists m, (k, m) ∈ rs) ->
  (sumZ (fun r => f (rec_cookie r)) (filter (fun r => has_diag_info r = false) P)
   + sumZ (fun r => f (rec_cookie r)) (filter (fun r => moves rh r = true) C)
   - sumZ (fun km => f km.1) (filter (fun km => has_diag_info (c_ar km.2) = false) rs)
   = sumZ (fun r => f (rec_cookie r)) (filter (fun r => has_diag_info r = false) C))%Z.
Proof using pr_zero.
  intros P f NP NC HD NR R1 R2.
  rewrite (sumZ_split _ (fun r => rec_cookie r ∈ cookies_of C) (filter _ P)).
  rewrite (sumZ_split _ (fun r => moves rh r = true) (filter (fun r => has_diag_info r = false) C)).
  assert (E1 : filter (fun r => moves rh r = true) (filter (fun r => has_diag_info r = false) C) = filter (fun r => moves rh r = true) C).
  { rewrite list_filter_filter. apply list_filter_iff. intros r. split; [tauto|]. intros M. split; [exact M|]. unfold moves in M.
    by destruct (has_diag_info r). }
  rewrite E1. clear E1.
  assert (E2 : sumZ (fun km : N * cell => f km.1) (filter (fun km => has_diag_info (c_ar km.2) = false) rs)
             = sumZ (fun r => f (rec_cookie r)) (filter (fun r => ~ rec_cookie r ∈ cookies_of C) (filter (fun r => has_diag_info r = false) P))).
  { rewrite sum_cookies, <- (sumZ_map f fst). apply sumZ_perm. apply NoDup_Permutation.
    - clear - NR. induction rs as [|[k m] rs IH]; [constructor|]. cbn in NR. apply NoDup_cons in NR as [H1 H2]. rewrite filter_cons.
      case_decide; [|by apply IH]. cbn. apply NoDup_cons. split; [|by apply IH]. intros Hin. apply H1.
      apply elem_of_list_fmap in Hin as (y & -> & Hy). apply elem_of_list_filter in Hy as [_ Hy]. by apply elem_of_list_fmap_1.
    - rewrite list_filter_filter. by apply nodup_filter.
    - intros k. rewrite !elem_of_list_fmap. split.
      + intros ([k' m] & -> & Hin). apply elem_of_list_filter in Hin as [Hi Hin]. cbn [fst snd] in *. destruct (R1 _ _ Hin) as [L1 L2].
        destruct (latest_Some _ _ _ L2) as [E Ho]. exists (c_ar m). split; [by rewrite E|]. apply elem_of_list_filter. split.
        * rewrite E. by apply latest_None.
        * apply elem_of_list_filter. by split.
      + intros (r & -> & Hin). apply elem_of_list_filter in Hin as [Hn Hin]. apply elem_of_list_filter in Hin as [Hi Hin].
        apply latest_None in Hn. pose proof (latest_nodup P r NP Hin) as L. destruct (R2 _ _ Hn L) as [m Hm].
        exists (rec_cookie r, m). split; [reflexivity|]. apply elem_of_list_filter. split; [|exact Hm]. cbn [snd].
        destruct (R1 _ _ Hm) as [_ L2]. rewrite L in L2. injection L2 as <-. exact Hi. }
  rewrite E2. clear E2.
  assert (E3 : sumZ (fun r => f (rec_cookie r)) (filter (fun r => ~ moves rh r = true) (filter (fun r => has_diag_info r = false) C))
             = sumZ (fun r => f (rec_cookie r)) (filter (fun r => rec_cookie r ∈ cookies_of C) (filter (fun r => has_diag_info r = false) P))); [|lia].
  rewrite (sumZ_split _ (fun r => rec_cookie r ∈ cookies_of P)).
  rewrite (sumZ_zero _ (filter (fun r => ~ rec_cookie r ∈ cookies_of P) _)).
  2: { intros r Hr. apply elem_of_list_filter in Hr as [Hn _]. apply latest_None in Hn. unfold f.
       assert (last_counts rh (rec_cookie r) = (0, 0)%N) as ->; [|by rewrite pr_zero].
       subst P. destruct rh as [|P' rh']; [reflexivity|]. cbn [head] in Hn. cbn [last_counts]. by rewrite Hn. }
  rewrite Z.add_0_r, !sum_cookies. apply sumZ_perm. apply NoDup_Permutation.
  - rewrite !list_filter_filter. by apply nodup_filter.
  - rewrite !list_filter_filter. by apply nodup_filter.
  - intros k. rewrite !elem_of_list_fmap. split.
    + intros (r & -> & Hin). apply elem_of_list_filter in Hin as [Hp Hin]. apply elem_of_list_filter in Hin as [Hm Hin].
      apply elem_of_list_filter in Hin as [Hi Hin]. unfold cookies_of in Hp. apply elem_of_list_fmap in Hp as (o & Eo & Ho).
      exists o. split; [exact Eo|]. apply elem_of_list_filter. split; [rewrite <- Eo; unfold cookies_of; by apply elem_of_list_fmap_1|].
      apply elem_of_list_filter. split; [|exact Ho]. unfold moves in Hm. fold P in Hm. rewrite Hi, Eo in Hm.
      change (match rh with [] => [] | P0 :: _ => P0 end) with P in Hm.
      rewrite (latest_nodup P o NP Ho) in Hm. cbn [negb andb] in Hm. by destruct (has_diag_info o).
    + intros (o & -> & Hin). apply elem_of_list_filter in Hin as [Hc Hin]. apply elem_of_list_filter in Hin as [Hi Ho].
      unfold cookies_of in Hc. apply elem_of_list_fmap in Hc as (r & Er & Hr). pose proof (HD o r Ho Hr Er) as HB.
      rewrite !bare_info in HB. specialize (HB Hi). exists r. split; [exact Er|]. apply elem_of_list_filter.
      split; [unfold cookies_of; rewrite <- Er; by apply elem_of_list_fmap_1|]. apply elem_of_list_filter.
      split; [|apply elem_of_list_filter; by split]. unfold moves. rewrite HB, <- Er. 
      change (match rh with [] => [] | P0 :: _ => P0 end) with P. rewrite (latest_nodup P o NP Ho), Hi. discriminate.
Qed.

Definition settled (rh : list (list archival)) (s : saver) : Prop :=
  eqm (zp (l_closed (s_loop s))) (sumZ (fun x => zp x) (ended rh)) /\
  eqm (zp (s_ctotals s)) (sumZ (fun r => zp (last_counts rh (rec_cookie r))) (filter (fun r => has_diag_info r = false) (head rh))) /\
  (forall k x, s_closing s !! k = Some x -> x = last_counts rh k /\
     exists r, r ∈ head rh /\ rec_cookie r = k /\ has_diag_info r = false) /\
  (forall r, r ∈ head rh -> has_diag_info r = false -> s_closing s !! rec_cookie r = None -> last_counts rh (rec_cookie r) = (0, 0)%N) /\
  l_live (s_loop s) = (0, 0)%N.

Lemma take_taken rh b s : cache_is (head rh) [] (s_cache s) -> s_dead (take_block w cf b s) = false ->
  NoDup (cookies_of (head rh)) -> Forall (fun r => is_Some (byte_counts r) \/ bare r) (head rh) ->
  good rh (accepted cf b) -> settled rh s ->
  cache_is (head rh) (accepted cf b) (s_cache (take_block w cf b s)) /\
  taken rh (l_closed (s_loop s)) (accepted cf b) (take_block w cf b s).
Proof.
  intros Hc Ha HP1 HP2 Hg (S1 & S2 & S3 & S4 & S5).
  assert (T : s_dead s = false /\ cache_is (head rh) (accepted cf b) (s_cache (take_block w cf b s)) /\
    (good rh (accepted cf b) -> taken rh (l_closed (s_loop s)) (accepted cf b) (take_block w cf b s)));
    [|destruct T as (_ & T1 & T2); split; [exact T1|by apply T2]].
  refine (take_block_ind w cf (fun C s' => cache_is (head rh) C (s_cache s') /\ (good rh C -> taken rh (l_closed (s_loop s)) C s'))
    _ b s _ Ha).
  - intros C r s1 [I1 I2] D Hf D'. destruct (accept_general w cf _ C r s1 I1 Hf D D') as (A1 & _). split; [exact A1|].
    intros Hg'. destruct (good_snoc rh C r Hg') as [Hg1 _]. eapply taken_step; try eassumption. by apply I2.
  - split; [exact Hc|]. intros _. unfold taken. rewrite S5, pr_zero. split; [apply eqm_refl|]. split; [reflexivity|].
    rewrite filter_nil. cbn [sumZ]. rewrite Z.add_0_r. split; [exact S2|]. split.
    + intros k x Hk. destruct (S3 k x Hk) as [E X]. split; [exact E|]. by left.
    + intros r [Hr|Hr]; [by apply S4|by apply elem_of_nil in Hr].
Qed.

Lemma block_settles rh b s : cache_is (head rh) [] (s_cache s) -> in_step s -> s_dead (do_block w cf c_ar b s) = false ->
  disciplined rh -> disciplined (accepted cf b :: rh) -> settled rh s ->
  exists s3, s_dead s3 = false /\ s3 = before_report w cf b s /\ do_block w cf c_ar b s = report (V4Time b) s3 /\ in_step s3 /\ only inert s s3 /\
    l_last (s_loop s3) = l_last (s_loop s) /\
    eqm (zp (total_of s3)) (sumZ (fun x => zp x) (current (accepted cf b :: rh) ++ ended (accepted cf b :: rh))) /\
    settled (accepted cf b :: rh) (report (V4Time b) s3).
Proof.
  intros Hc Hi Hd Hrh (NC & FC & HD & _) HS.
  assert (HP : NoDup (cookies_of (head rh)) /\ Forall (fun r => is_Some (byte_counts r) \/ bare r) (head rh)).
  { destruct rh as [|P rh']; [split; constructor|]. destruct Hrh as (H1 & H2 & _). by split. }
  destruct HP as [NP FP].
  assert (Hg : good rh (accepted cf b)).
  { split; [exact NC|]. split; [exact FC|]. intros o r Ho. destruct rh as [|P rh']; [by apply elem_of_nil in Ho|]. by apply HD. }
  destruct (block_cut w cf Hfair _ b s Hc Hi Hd) as (_ & Ht & rs & s2 & Hp & B1 & B2 & B3 & B4 & Da & BR & E & J & O & L).
  destruct (take_taken rh b s Hc Ht NP FP Hg HS) as [Hc1 (T1 & T2 & T3 & T4 & T5)].
  destruct HS as (S1 & _). remember (before_report w cf b s) as br eqn:Hbr. clear Hbr. set (s1 := take_block w cf b s) in *. clearbody s1.
  set (C := accepted cf b) in *. clearbody C. set (P := head rh) in *.
  destruct (cache_is_end _ _ _ Hc1) as [Hres _].
  assert (R1 : forall k m, (k, m) ∈ rs -> latest k C = None /\ latest k P = Some (c_ar m)).
  { intros k m Hin. rewrite Hp in Hin. apply elem_of_map_to_list in Hin. specialize (Hres k). rewrite Hin in Hres. cbn in Hres.
    unfold reference in Hres. destruct (latest k C); [discriminate Hres|]. by split. }
  assert (R2 : forall k o, latest k C = None -> latest k P = Some o -> exists m, (k, m) ∈ rs).
  { intros k o H1 H2. specialize (Hres k). unfold reference in Hres. rewrite H1, H2 in Hres.
    destruct ((end_cycle (s_cache s1)).1 !! k) as [m|] eqn:Em; [|discriminate Hres]. exists m. rewrite Hp. by apply elem_of_map_to_list. }
  assert (NR : NoDup rs.*1) by (rewrite Hp; apply NoDup_fst_map_to_list).
  clear Hc Hc1 Hres Hp.
  rewrite <- B2 in T3. rewrite <- B1 in T4, T5. rewrite <- B3 in T1, T2.
  destruct (close_all_taken rh NP FP rs s2 _ (sumZ (fun x => zp x) (ended rh)) Da NR
    ltac:(intros k m Hin; destruct (R1 k m Hin) as [X1 X2]; destruct (latest_Some _ _ _ X2) as [X3 X4]; split; [exact X2|]; split;
      [intros x Hx; by apply T4 in Hx as [-> _]|intros Y1 Y2; rewrite <- X3 in Y2 |- *; apply T5; [by left|exact Y1|exact Y2]])
    T3 ltac:(rewrite T2; exact S1)) as (K1 & K2 & K3 & K4 & K5).
  pose proof (closing_sum rh C rs NP NC ltac:(apply Hg) NR R1 R2) as CS. cbn zeta in CS. change (match rh with [] => [] | P0 :: _ => P0 end) with (head rh) in K1. rewrite CS in K1. clear CS.
  set (s3 := close_all w cf rs s2) in *. clearbody s3. rewrite <- K3 in T1.
  (* the ended connections *)
  assert (KE : rs.*1 ≡ₚ filter (fun k => k ∉ cookies_of C) (cookies_of P)).
  { apply NoDup_Permutation; [exact NR|by apply NoDup_filter|]. intros k. rewrite elem_of_list_filter, elem_of_list_fmap. split.
    - intros ([k' m] & -> & Hin). cbn [fst]. destruct (R1 _ _ Hin) as [X1 X2]. destruct (latest_Some _ _ _ X2) as [X3 X4].
      split; [by apply latest_None|]. unfold cookies_of. rewrite <- X3. by apply elem_of_list_fmap_1.
    - intros [X1 X2]. unfold cookies_of in X2. apply elem_of_list_fmap in X2 as (o & -> & Ho).
      apply latest_None in X1. destruct (R2 _ _ X1 (latest_nodup P o NP Ho)) as [m Hm]. by exists (rec_cookie o, m). }
  assert (EE : (sumZ (fun x => zp x) (ended rh) + sumZ (fun k => zp (last_counts rh k)) rs.*1 = sumZ (fun x => zp x) (ended (C :: rh)))%Z).
  { cbn [ended]. rewrite sumZ_app, Z.add_comm. f_equal. rewrite (sumZ_perm _ _ _ KE). unfold P. destruct rh as [|P' rh'].
    - reflexivity.
    - cbn [head]. by rewrite sumZ_map. }
  rewrite EE in K2. clear EE KE.
  (* the bytes of the current connections *)
  assert (LC : forall r, r ∈ C -> last_counts (C :: rh) (rec_cookie r) =
      if has_diag_info r then get_stats r else last_counts rh (rec_cookie r)).
  { intros r Hr. cbn [last_counts]. rewrite (latest_nodup C r NC Hr). destruct (has_diag_info r) eqn:Hi'.
    - rewrite Forall_forall in FC. destruct (FC r Hr) as [[x Hx]|Hb]; [|apply bare_info in Hb; congruence].
      rewrite Hx. symmetry. by apply counts_stats.
    - destruct (bare_counts r Hi') as [-> _]. reflexivity. }
  assert (K1' : eqm (zp (s_ctotals s3)) (sumZ (fun r => zp (last_counts (C :: rh) (rec_cookie r))) (filter (fun r => has_diag_info r = false) C))).
  { rewrite (sumZ_ext _ (fun r => zp (last_counts rh (rec_cookie r)))); [exact K1|].
    intros r Hr. apply elem_of_list_filter in Hr as [Hi' Hr]. by rewrite LC, Hi' by exact Hr. }
  exists s3. split; [exact Da|]. split; [exact BR|]. split; [exact E|]. split; [exact J|]. split; [exact O|]. split; [exact L|]. split.
  - unfold total_of. rewrite sumZ_app. cbn [current]. unfold cookies_of. rewrite !sumZ_map.
    assert (ES : sumZ (fun r => zp (last_counts (C :: rh) (rec_cookie r))) C =
       (sumZ (fun r => zp (last_counts (C :: rh) (rec_cookie r))) (filter (fun r => has_diag_info r = false) C) + sumZ (fun r => zp (get_stats r)) C)%Z).
    { rewrite (sumZ_split (fun r => zp (get_stats r)) (fun r => has_diag_info r = false)).
      rewrite (sumZ_zero (fun r => zp (get_stats r)) (filter (fun r => has_diag_info r = false) C)).
      - rewrite (sumZ_split (fun r => zp (last_counts (C :: rh) (rec_cookie r))) (fun r => has_diag_info r = false) C). rewrite Z.add_0_l. f_equal. apply sumZ_ext.
        intros r Hr. apply elem_of_list_filter in Hr as [Hi' Hr]. rewrite LC by exact Hr. destruct (has_diag_info r); [reflexivity|contradiction (Hi' eq_refl)].
      - intros r Hr. apply elem_of_list_filter in Hr as [Hi' Hr]. destruct (bare_counts r Hi') as [_ ->]. by rewrite pr_zero. }
    rewrite ES.
    lazymatch goal with |- eqm _ (?a + ?b + ?c)%Z => replace (a + b + c)%Z with ((c + a) + b)%Z by (generalize a b c; intros; lia) end.
    apply eqm_pr_add; [|exact T1]. apply eqm_pr_add; [exact K2|exact K1'].
  - destruct (report_step (V4Time b) s3 Da J) as (_ & _ & Q3 & Q4 & Q5 & Q6 & _). unfold settled. rewrite Q4, Q5, Q6. cbn [head].
    split; [exact K2|]. split; [exact K1'|]. split; [|split; [|exact Q3]].
    + intros k x Hk. destruct (K4 k x Hk) as [H1 H2]. destruct (T4 k x H1) as [-> [(r & X1 & X2 & X3)|(r & X1 & X2 & X3)]].
      * assert (Hl : latest k P = Some r) by (rewrite <- X2; by apply latest_nodup).
        destruct (latest k C) as [r'|] eqn:LCk.
        -- destruct (latest_Some _ _ _ LCk) as [Y1 Y2]. destruct Hg as (_ & _ & Hg). pose proof (Hg r r' X1 Y2 ltac:(congruence)) as HB.
           rewrite !bare_info in HB. specialize (HB X3). split; [|by exists r'].
           rewrite <- Y1. rewrite LC, HB by exact Y2. reflexivity.
        -- exfalso. destruct (R2 _ _ LCk Hl) as [m Hm]. pose proof (H2 m Hm) as H3. destruct (R1 _ _ Hm) as [_ H4]. congruence.
      * split; [|by exists r]. rewrite <- X2. by rewrite LC, X3 by exact X1.
    + intros r Hr Hb Hn. rewrite LC, Hb by exact Hr.
      destruct (s_closing s2 !! rec_cookie r) as [x|] eqn:Ex; [|by apply (T5 r); [right|..]].
      exfalso. assert (X : s_closing s3 !! rec_cookie r = Some x); [|congruence].
      rewrite K5; [exact Ex|]. intros Hin. apply elem_of_list_fmap in Hin as ([k m] & Ek & Hin). cbn [fst] in Ek.
      destruct (R1 _ _ Hin) as [H1 _]. apply latest_None in H1. apply H1. rewrite <- Ek. by apply elem_of_list_fmap_1.
Qed.
End Totals.

(** ** C25, C26 over histories *)
Section Final.
Variables (w : world) (cf : config).
Hypothesis Hfair : fair_order w.
Lemma rounds_snoc bs b : rounds cf (bs ++ [b]) = accepted cf b :: rounds cf bs.
Proof. unfold rounds. by rewrite map_app, rev_app_distr. Qed.
Lemma rounds_head bs : head (rounds cf bs) = last_accepted cf bs.
Proof. destruct bs as [|b bs _] using rev_ind; [reflexivity|]. by rewrite rounds_snoc, last_accepted_snoc. Qed.
Lemma disciplined_tail C rh : disciplined (C :: rh) -> disciplined rh. Proof. intros (_ & _ & _ & H). exact H. Qed.

Lemma loop_settled bs : s_dead (loop w cf bs new_saver) = false -> disciplined (rounds cf bs) ->
  settled fst (rounds cf bs) (loop w cf bs new_saver) /\ settled snd (rounds cf bs) (loop w cf bs new_saver).
Proof using Hfair.
  induction bs as [|b bs IH] using rev_ind; intros Hd HD.
  { split; (split; [apply eqm_refl|split; [apply eqm_refl|split; [|split; [|reflexivity]]]]); try (intros k x Hk; discriminate Hk);
    intros r Hr; by apply elem_of_nil in Hr. }
  pose proof (loop_alive _ _ _ _ _ Hd) as Hd'. rewrite rounds_snoc in *. pose proof (disciplined_tail _ _ HD) as HD'.
  destruct (IH Hd' HD') as [S1 S2]. destruct (loop_step w cf Hfair bs Hd') as (I1 & I2 & _). rewrite <- rounds_head in I1.
  rewrite loop_snoc in *. split.
  - destruct (block_settles w cf Hfair fst ltac:(reflexivity) ltac:(reflexivity) eq_refl _ b _ I1 I2 Hd HD' HD S1)
      as (s3 & _ & _ & -> & _ & _ & _ & _ & S). exact S.
  - destruct (block_settles w cf Hfair snd ltac:(reflexivity) ltac:(reflexivity) eq_refl _ b _ I1 I2 Hd HD' HD S2)
      as (s3 & _ & _ & -> & _ & _ & _ & _ & S). exact S.
Qed.

Lemma sum_pairs_fst l : sumZ (fun x => Z.of_N x.1) l = Z.of_N (sum_pairs l).1.
Proof. induction l as [|x l IH]; [reflexivity|]. cbn [sumZ sum_pairs foldr fst]. fold (sum_pairs l). rewrite N2Z.inj_add, IH. reflexivity. Qed.
Lemma sum_pairs_snd l : sumZ (fun x => Z.of_N x.2) l = Z.of_N (sum_pairs l).2.
Proof. induction l as [|x l IH]; [reflexivity|]. cbn [sumZ sum_pairs foldr snd]. fold (sum_pairs l). rewrite N2Z.inj_add, IH. reflexivity. Qed.

Lemma block_totals bs b : s_dead (loop w cf (bs ++ [b]) new_saver) = false -> disciplined (rounds cf (bs ++ [b])) ->
  let G := grand_total (rounds cf (bs ++ [b])) in
  exists e, s_log (loop w cf (bs ++ [b]) new_saver) = s_log (loop w cf bs new_saver) ++ e /\
    reports e = expected (s_log (loop w cf bs new_saver)) (G.1 mod 2 ^ 64, G.2 mod 2 ^ 64)%N (due bs b).
Proof using Hfair.
  intros Hd HD G. pose proof (loop_alive _ _ _ _ _ Hd) as Hd'. rewrite rounds_snoc in *. pose proof (disciplined_tail _ _ HD) as HD'.
  destruct (loop_settled bs Hd' HD') as [S1 S2]. destruct (loop_step w cf Hfair bs Hd') as (I1 & I2 & I3 & _). rewrite <- rounds_head in I1.
  rewrite loop_snoc in *.
  destruct (block_settles w cf Hfair fst ltac:(reflexivity) ltac:(reflexivity) eq_refl _ b _ I1 I2 Hd HD' HD S1)
      as (s3 & Da & B1 & E & J & (e1 & L1 & F1) & L & T1 & _).
  destruct (block_settles w cf Hfair snd ltac:(reflexivity) ltac:(reflexivity) eq_refl _ b _ I1 I2 Hd HD' HD S2)
      as (s3' & _ & B2 & _ & _ & _ & _ & T2 & _).
  rewrite <- B1 in B2. subst s3'. clear B1. rewrite E.
  rewrite sum_pairs_fst in T1. rewrite sum_pairs_snd in T2. fold (grand_total (accepted cf b :: rounds cf bs)) in T1, T2. fold G in T1, T2.
  destruct (add2_lt (add2 (l_closed (s_loop s3)) (s_ctotals s3)) (l_live (s_loop s3))) as [X1 X2].
  apply eqm_small in T1; [|exact X1]. apply eqm_small in T2; [|exact X2].
  destruct (report_step (V4Time b) _ Da J) as (_ & _ & _ & _ & _ & _ & _ & e & L2 & R).
  exists (e1 ++ e). rewrite L2, L1, app_assoc. split; [reflexivity|].
  destruct (inert_nothing e1 F1) as (N1 & N2 & N3). rewrite reports_app, N1, R, L, I3, due_seconds. cbn [app].
  assert (T : (G.1 mod 2 ^ 64, G.2 mod 2 ^ 64)%N = total_of s3).
  { unfold G. rewrite rounds_snoc. rewrite (surjective_pairing (total_of s3)). f_equal; symmetry; [exact T1|exact T2]. }
  rewrite T.
  unfold expected. by rewrite L1, observed_sent_app, observed_recv_app, N2, N3, !app_nil_r.
Qed.
End Final.

(** ** Consequences: bounds, one report per second, and the report that gets stuck *)
Section Bounds.
Variables (w : world) (cf : config).
Hypothesis Hfair : fair_order w.

Lemma observed_reports l : observed_sent (reports l) = observed_sent l /\ observed_recv (reports l) = observed_recv l.
Proof.
  induction l as [|a l [I1 I2]]; [split; reflexivity|]. unfold reports in *. cbn [List.filter].
  destruct a; cbn [is_report]; unfold observed_sent, observed_recv in *; cbn; rewrite ?I1, ?I2; split; reflexivity.
Qed.
Lemma expected_one_small before total : exists n : option N, (forall x, n = Some x -> (x <= most)%N) /\
  observed_sent [expected_one before total AObsSent AErrSent] = option_list n /\
  observed_recv [expected_one before total AObsRecv AErrRecv] = option_list n /\
  observed_recv [expected_one before total AObsSent AErrSent] = [] /\
  observed_sent [expected_one before total AObsRecv AErrRecv] = [].
Proof.
  unfold expected_one.
  destruct ((before <=? total)%N && (total <=? before + most)%N && (before + most <? 2 ^ 64)%N) eqn:E.
  - exists (Some (total - before)%N). split; [|repeat split; reflexivity]. intros x [= <-].
    apply andb_prop in E as [E _]. apply andb_prop in E as [_ E]. apply N.leb_le in E. lia.
  - exists None. split; [intros x [=]|repeat split; reflexivity].
Qed.
Lemma expected_small l total now : exists n m : option N,
  (forall x, n = Some x -> (x <= most)%N /\ now = true) /\ (forall x, m = Some x -> (x <= most)%N /\ now = true) /\
  observed_sent (expected l total now) = option_list n /\ observed_recv (expected l total now) = option_list m.
Proof.
  destruct now; [|exists None, None; repeat split; intros; discriminate].
  destruct (expected_one_small (sum_N (observed_sent l)) total.1) as (n & N1 & N2 & N3 & N4 & N5).
  destruct (expected_one_small (sum_N (observed_recv l)) total.2) as (m & M1 & M2 & M3 & M4 & M5).
  exists n, m. unfold expected.
  split; [intros x Hx; split; [exact (N1 x Hx)|reflexivity]|]. split; [intros x Hx; split; [exact (M1 x Hx)|reflexivity]|].
  split.
  - change [?a; ?b] with ([a] ++ [b]). rewrite observed_sent_app, N2, M5, app_nil_r. reflexivity.
  - change [?a; ?b] with ([a] ++ [b]). rewrite observed_recv_app, N4, M3. reflexivity.
Qed.
Lemma block_observes bs b : s_dead (loop w cf (bs ++ [b]) new_saver) = false -> exists n m : option N,
  (forall x, n = Some x -> (x <= most)%N /\ due bs b = true) /\ (forall x, m = Some x -> (x <= most)%N /\ due bs b = true) /\
  observed_sent (s_log (loop w cf (bs ++ [b]) new_saver)) = observed_sent (s_log (loop w cf bs new_saver)) ++ option_list n /\
  observed_recv (s_log (loop w cf (bs ++ [b]) new_saver)) = observed_recv (s_log (loop w cf bs new_saver)) ++ option_list m.
Proof using Hfair.
  intros Hd. destruct (block_reports w cf Hfair bs b Hd) as (e & total & L & R).
  destruct (expected_small (s_log (loop w cf bs new_saver)) total (due bs b)) as (n & m & Hn & Hm & E1 & E2).
  exists n, m. split; [exact Hn|]. split; [exact Hm|]. destruct (observed_reports e) as [O1 O2]. rewrite R in O1, O2.
  rewrite L, observed_sent_app, observed_recv_app, <- O1, <- O2, E1, E2. split; reflexivity.
Qed.

Lemma observations_bounded bs : s_dead (loop w cf bs new_saver) = false ->
  Forall (fun x => (x <= most)%N) (observed_sent (s_log (loop w cf bs new_saver)) ++ observed_recv (s_log (loop w cf bs new_saver))).
Proof using Hfair.
  induction bs as [|b bs IH] using rev_ind; intros Hd; [constructor|].
  specialize (IH (loop_alive _ _ _ _ _ Hd)). destruct (block_observes bs b Hd) as (n & m & Hn & Hm & -> & ->).
  apply Forall_app in IH as [I1 I2]. apply Forall_app. split; apply Forall_app; (split; [assumption|]).
  - destruct n as [x|]; [|constructor]. apply Forall_singleton. apply (Hn x eq_refl).
  - destruct m as [x|]; [|constructor]. apply Forall_singleton. apply (Hm x eq_refl).
Qed.

(** The seconds of the rounds that are due, in order. *)
Fixpoint due_list (done todo : list block) : list Z :=
  match todo with
  | [] => []
  | b :: rest => (if due done b then [unix (V4Time b)] else []) ++ due_list (done ++ [b]) rest
  end.
Lemma due_list_app done a c : due_list done (a ++ c) = due_list done a ++ due_list (done ++ a) c.
Proof.
  revert done. induction a as [|x a IH]; intros done; cbn [app due_list]; [by rewrite app_nil_r|].
  rewrite IH, <- !app_assoc. reflexivity.
Qed.
Lemma due_list_snoc bs b : due_list [] (bs ++ [b]) = due_list [] bs ++ (if due bs b then [unix (V4Time b)] else []).
Proof. rewrite due_list_app. cbn [due_list app]. by rewrite app_nil_r. Qed.

Lemma at_most_once bs : s_dead (loop w cf bs new_saver) = false ->
  length (observed_sent (s_log (loop w cf bs new_saver))) <= length (due_list [] bs) /\
  length (observed_recv (s_log (loop w cf bs new_saver))) <= length (due_list [] bs).
Proof using Hfair.
  induction bs as [|b bs IH] using rev_ind; intros Hd; [cbn; lia|].
  specialize (IH (loop_alive _ _ _ _ _ Hd)). destruct (block_observes bs b Hd) as (n & m & Hn & Hm & -> & ->).
  rewrite due_list_snoc, !app_length.
  assert (length (option_list n) <= length (if due bs b then [unix (V4Time b)] else [])).
  { destruct n as [x|]; [|cbn; lia]. destruct (Hn x eq_refl) as [_ ->]. reflexivity. }
  assert (length (option_list m) <= length (if due bs b then [unix (V4Time b)] else [])).
  { destruct m as [x|]; [|cbn; lia]. destruct (Hm x eq_refl) as [_ ->]. reflexivity. }
  lia.
Qed.

Lemma due_list_in bs z : z ∈ due_list [] bs -> exists b, b ∈ bs /\ unix (V4Time b) = z.
Proof.
  induction bs as [|b bs IH] using rev_ind; [intros H; by apply elem_of_nil in H|].
  rewrite due_list_snoc, elem_of_app. intros [H|H].
  - destruct (IH H) as (b' & I1 & I2). exists b'. split; [apply elem_of_app; by left|exact I2].
  - exists b. split; [apply elem_of_app; right; apply elem_of_list_here|].
    destruct (due bs b); [|by apply elem_of_nil in H]. by apply elem_of_list_singleton in H.
Qed.
Lemma due_list_nodup bs : NoDup (due_list [] bs).
Proof.
  induction bs as [|b bs IH] using rev_ind; [constructor|]. rewrite due_list_snoc. destruct (due bs b) eqn:D; [|by rewrite app_nil_r].
  apply NoDup_app. split; [exact IH|]. split; [|apply NoDup_singleton]. intros z Hz Hz'. apply elem_of_list_singleton in Hz'. subst z.
  destruct (due_list_in _ _ Hz) as (b' & I1 & I2). apply andb_prop in D as [_ D]. rewrite List.forallb_forall in D.
  apply elem_of_list_In in I1. specialize (D _ I1). apply Z.ltb_lt in D. lia.
Qed.
Lemma due_list_distinct bs : length (due_list [] bs) <= length (remove_dups (map (fun b => unix (V4Time b)) bs)).
Proof.
  apply submseteq_length, NoDup_submseteq; [apply due_list_nodup|]. intros z Hz. apply elem_of_remove_dups.
  destruct (due_list_in _ _ Hz) as (b & I1 & I2). rewrite <- I2. apply elem_of_list_In, (in_map (fun b => unix (V4Time b))), elem_of_list_In, I1.
Qed.
Lemma once_per_second bs : s_dead (loop w cf bs new_saver) = false ->
  length (observed_sent (s_log (loop w cf bs new_saver))) <= length (remove_dups (map (fun b => unix (V4Time b)) bs)) /\
  length (observed_recv (s_log (loop w cf bs new_saver))) <= length (remove_dups (map (fun b => unix (V4Time b)) bs)).
Proof using Hfair. intros Hd. destruct (at_most_once bs Hd). pose proof (due_list_distinct bs). lia. Qed.

(** *** Stuck *)
Lemma expected_one_stuck before total : (before + most < total)%N ->
  observed_sent [expected_one before total AObsSent AErrSent] = [] /\ observed_recv [expected_one before total AObsRecv AErrRecv] = [].
Proof.
  intros H. unfold expected_one. replace (total <=? before + most)%N with false by (symmetry; apply N.leb_gt; exact H).
  rewrite andb_false_r. split; reflexivity.
Qed.
Lemma stuck_sent bs xs : s_dead (loop w cf (bs ++ xs) new_saver) = false -> disciplined (rounds cf (bs ++ xs)) ->
  (forall ys, ys `prefix_of` xs -> ys <> [] ->
     (sum_N (observed_sent (s_log (loop w cf bs new_saver))) + most < (grand_total (rounds cf (bs ++ ys))).1 mod 2 ^ 64)%N) ->
  observed_sent (s_log (loop w cf (bs ++ xs) new_saver)) = observed_sent (s_log (loop w cf bs new_saver)).
Proof using Hfair.
  induction xs as [|b xs IH] using rev_ind; intros Hd HD Hx; [by rewrite app_nil_r|].
  pose proof (Hx (xs ++ [b]) ltac:(reflexivity) ltac:(intros E; by apply app_eq_nil in E as [_ [=]])) as HB.
  rewrite app_assoc in *. pose proof (loop_alive _ _ _ _ _ Hd) as Hd'.
  assert (HD' : disciplined (rounds cf (bs ++ xs))) by (rewrite rounds_snoc in HD; exact (disciplined_tail _ _ HD)).
  assert (I : observed_sent (s_log (loop w cf (bs ++ xs) new_saver)) = observed_sent (s_log (loop w cf bs new_saver))).
  { apply IH; [exact Hd'|exact HD'|]. intros ys Hy. apply Hx. by apply prefix_app_r. }
  destruct (block_totals w cf Hfair _ _ Hd HD) as (e & L & R). rewrite L, observed_sent_app, <- (proj1 (observed_reports e)), R, I.
  destruct (due (bs ++ xs) b); [|by rewrite app_nil_r]. unfold expected. rewrite I.
  change [?a; ?b] with ([a] ++ [b]). rewrite observed_sent_app. cbn [fst snd].
  rewrite (proj1 (expected_one_stuck _ _ HB)).
  destruct (expected_one_small (sum_N (observed_recv (s_log (loop w cf (bs ++ xs) new_saver))))
    ((grand_total (rounds cf ((bs ++ xs) ++ [b]))).2 mod 2 ^ 64)%N) as (_ & _ & _ & _ & _ & ->).
  by rewrite !app_nil_r.
Qed.
Lemma stuck_recv bs xs : s_dead (loop w cf (bs ++ xs) new_saver) = false -> disciplined (rounds cf (bs ++ xs)) ->
  (forall ys, ys `prefix_of` xs -> ys <> [] ->
     (sum_N (observed_recv (s_log (loop w cf bs new_saver))) + most < (grand_total (rounds cf (bs ++ ys))).2 mod 2 ^ 64)%N) ->
  observed_recv (s_log (loop w cf (bs ++ xs) new_saver)) = observed_recv (s_log (loop w cf bs new_saver)).
Proof using Hfair.
  induction xs as [|b xs IH] using rev_ind; intros Hd HD Hx; [by rewrite app_nil_r|].
  pose proof (Hx (xs ++ [b]) ltac:(reflexivity) ltac:(intros E; by apply app_eq_nil in E as [_ [=]])) as HB.
  rewrite app_assoc in *. pose proof (loop_alive _ _ _ _ _ Hd) as Hd'.
  assert (HD' : disciplined (rounds cf (bs ++ xs))) by (rewrite rounds_snoc in HD; exact (disciplined_tail _ _ HD)).
  assert (I : observed_recv (s_log (loop w cf (bs ++ xs) new_saver)) = observed_recv (s_log (loop w cf bs new_saver))).
  { apply IH; [exact Hd'|exact HD'|]. intros ys Hy. apply Hx. by apply prefix_app_r. }
  destruct (block_totals w cf Hfair _ _ Hd HD) as (e & L & R). rewrite L, observed_recv_app, <- (proj2 (observed_reports e)), R, I.
  destruct (due (bs ++ xs) b); [|by rewrite app_nil_r]. unfold expected. rewrite I.
  change [?a; ?b] with ([a] ++ [b]). rewrite observed_recv_app. cbn [fst snd].
  rewrite (proj2 (expected_one_stuck _ _ HB)).
  destruct (expected_one_small (sum_N (observed_sent (s_log (loop w cf (bs ++ xs) new_saver))))
    ((grand_total (rounds cf ((bs ++ xs) ++ [b]))).1 mod 2 ^ 64)%N) as (_ & _ & _ & _ & -> & _).
  by rewrite !app_nil_r.
Qed.
End Bounds.
