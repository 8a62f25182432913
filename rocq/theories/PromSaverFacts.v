(** The histograms and labels of the saver and the collector. *)
From Coq Require Import Strings.String NArith ZArith Lia.
From stdpp Require Import gmap.
From Verif Require Import GoBase GoBaseFacts Layout Tcp Inetdiag Netlink Snapshot Collector EventName EventServer Metrics Saver SpecSaver SpecTotals SaverTotals SaverSizes SaverReports Prom SpecProm FloatFacts PromFacts PromSaver.
Local Open Scope list_scope.

(** ** Which label values are given *)
Definition label_of (m : metric) : list bytes :=
  match snd (use m) with By l => map snd l | Of l => l | Plain => [] end.
Definition plain (m : metric) : Prop := List.Forall ascii (label_of m).
Definition ascii_b (s : bytes) : bool := forallb (fun c => (bval c <? 128)%N) s.
Lemma ascii_check s : ascii_b s = true -> ascii s.
Proof. intros H. apply List.Forall_forall. intros c Hc. unfold ascii_b in H. rewrite forallb_forall in H. apply N.ltb_lt, H, Hc. Qed.
Lemma dec_ascii n : ascii (dec n).
Proof. eapply List.Forall_impl; [|apply (dec_digits n)]. intros c. destruct c; intros H; try discriminate H; reflexivity. Qed.

Ltac one := constructor; [|constructor].
Ltac lit_label := unfold plain, label_of; cbn [use snd map]; one; apply ascii_check; vm_compute; reflexivity.

Lemma process_plain m seq pid : List.Forall plain (process_single_m m seq pid).1.
Proof.
  unfold process_single_m. destruct (negb _); [one; lit_label|]. destruct (negb _); [one; lit_label|].
  destruct (N.eqb _ NLMSG_DONE); [constructor|]. destruct (N.eqb _ NLMSG_ERROR); [|constructor].
  destruct (_ <? _); [constructor|]. destruct (N.eqb _ 0); [constructor|]. one; lit_label.
Qed.
Lemma batch_plain seq pid msgs : forall res, List.Forall plain (one_batch_m seq pid msgs res).1.
Proof.
  induction msgs as [|m msgs IH]; intros res; [constructor|]. cbn [one_batch_m]. pose proof (process_plain m seq pid) as H.
  destruct (process_single_m m seq pid) as [u [[m' cont] err]]. cbn [fst] in H. destruct err; [exact H|]. destruct cont; [|exact H].
  specialize (IH (match m' with Some m' => res ++ [m'] | None => res end)). destruct (one_batch_m _ _ _ _) as [u' r]. apply List.Forall_app. split; assumption.
Qed.
Lemma receive_plain seq pid rs : forall res, List.Forall plain (receive_loop_m seq pid rs res).1.1.
Proof.
  induction rs as [|r rs IH]; intros res; [constructor|]. cbn [receive_loop_m]. destruct r as [msgs| | |]; try constructor.
  pose proof (batch_plain seq pid msgs res) as H. destruct (one_batch_m seq pid msgs res) as [u [res'|[res' err]]]; [|exact H].
  specialize (IH res'). destruct (receive_loop_m seq pid rs res') as [[u' n] o]. apply List.Forall_app. split; assumption.
Qed.
Lemma af_ascii t : ascii (af_label t).
Proof. unfold af_label. destruct (N.eqb _ _); [apply ascii_check; reflexivity|]. destruct (N.eqb _ _); apply ascii_check; reflexivity. Qed.
Lemma one_type_plain so seq t : List.Forall plain (one_type_m so seq t).1.
Proof.
  assert (D : forall n, List.Forall plain [SyscallTime (af_label t); ConnectionCount (af_label t) n]).
  { intros n. constructor; [|one]; unfold plain, label_of; cbn [use snd map]; one; apply af_ascii. }
  unfold one_type_m. destruct (so_subscribe so); [apply D|]. destruct (so_send so _); [apply D|].
  destruct (so_pid so) as [pid| | |]; [|apply D|constructor|constructor].
  pose proof (receive_plain (h_seq (q_header (make_req seq t))) pid (so_receive so) []) as H.
  destruct (receive_loop_m _ _ _ _) as [[u n] o]. cbn [fst] in *. destruct o; try exact H. apply List.Forall_app. split; [exact H|apply D].
Qed.
Lemma collect_plain v n : List.Forall plain (collect_m v n).1.
Proof.
  unfold collect_m. pose proof (one_type_plain (v_socket v n AF_INET6) (v_seq v n AF_INET6) AF_INET6) as H6.
  destruct (one_type_m _ _ AF_INET6) as [u6 [[r6 e6]| | |]]; try exact H6.
  pose proof (one_type_plain (v_socket v n AF_INET) (v_seq v n AF_INET) AF_INET) as H4.
  destruct (one_type_m _ _ AF_INET) as [u4 o4]. apply List.Forall_app. split; assumption.
Qed.
Lemma run_plain v reps fuel : forall loops, List.Forall plain (run_metrics v reps fuel loops).
Proof.
  induction fuel as [|fuel IH]; intros loops; [constructor|]. cbn [run_metrics]. destruct (_ && _); [|constructor].
  pose proof (collect_plain v loops) as H. destruct (collect_m v loops) as [u o]. cbn [fst] in H.
  destruct o; try exact H. apply List.Forall_app. split; [exact H|]. constructor; [constructor|apply IH].
Qed.
Lemma copy_plain src n t : ascii_b t = true -> List.Forall plain (maybe_copy_m src n t).
Proof.
  intros H. unfold maybe_copy_m. destruct (_ <? _); [constructor|]. destruct (_ <? _); [|constructor].
  one. unfold plain, label_of; cbn [use snd]. one. apply ascii_check, H.
Qed.
Lemma attr_plain t raw : List.Forall plain (attr_metrics t raw).
Proof.
  unfold attr_metrics.
  repeat match goal with |- List.Forall plain (if ?c then _ else _) => destruct c end;
    first [apply copy_plain; vm_compute; reflexivity|constructor; fail|one; unfold plain, label_of; cbn [use snd]; one; first [apply dec_ascii|apply ascii_check; vm_compute; reflexivity]].
Qed.
Lemma attrs_plain l : forall t r, List.Forall plain (decode_attrs_m t l r).1.
Proof.
  induction l as [|[raw|] l IH]; intros t r; [constructor| |apply IH]. cbn [decode_attrs_m].
  pose proof (attr_plain t (vis raw)) as H. destruct (decode_attr t (vis raw) r) as [[r1 ok]| | |]; try exact H.
  match goal with |- context [decode_attrs_m (S t) l ?x] => specialize (IH (S t) x); destruct (decode_attrs_m (S t) l x) as [u' x'] end.
  apply List.Forall_app. split; assumption.
Qed.
Lemma decode_plain ar : List.Forall plain (decode_m ar).1.
Proof.
  unfold decode_m.
  assert (K : forall (o : outcome snapshot), List.Forall plain
    (match o with Ret r => let (u, x) := decode_attrs_m 0 (ar_attrs ar) r in (u, bind x (fun s => Ret (ar_meta ar, s)))
     | Fail e => ([], Fail e) | Panic => ([], Panic) | Diverge => ([], Diverge) end).1).
  { intros [r| | |]; try constructor. pose proof (attrs_plain (ar_attrs ar) 0 r) as H. destruct (decode_attrs_m 0 (ar_attrs ar) r) as [u x]. exact H. }
  destruct (ar_meta ar), (ar_raw ar); [apply K|apply (K (Ret (new_snapshot (ar_time ar))))|apply K|constructor].
Qed.
Lemma flow_plain o : List.Forall plain (flow_metrics o).
Proof. destruct o; try constructor. cbn [flow_metrics]. destruct (Z.eqb _ _); [one; lit_label|constructor]. Qed.

(** ** Every update is accepted *)
(** The declaration with that name accepts the labels. *)
Definition taken (valid : bytes -> bool) (u : bytes * naming) : Prop :=
  exists d, In d declarations /\ d_name d = fst u /\ accepts valid d (snd u) = true.
Tactic Notation "the_decl" integer(n) := eexists; split; [do n right; left; reflexivity|split; [reflexivity|]].
Lemma plain_taken valid m : (forall s, ascii s -> valid s = true) -> plain m -> taken valid (use m).
Proof.
  intros HV P. unfold plain, label_of in P.
  destruct m; cbn [use snd map] in P; unfold taken; cbn [use fst snd];
    [the_decl 0|the_decl 1|the_decl 2|the_decl 4|the_decl 9|the_decl 10|the_decl 11];
    try reflexivity; apply List.Forall_inv in P; cbn; rewrite (HV _ P); reflexivity.
Qed.
Lemma saver_taken valid a u : (forall s, ascii s -> valid s = true) -> saver_use a = Some u -> taken valid u.
Proof.
  intros HV H. destruct a; try discriminate H; cbn [saver_use] in H; injection H as <-; unfold taken; cbn [fst snd];
    [the_decl 5|the_decl 8|the_decl 3|the_decl 6|the_decl 7|the_decl 4|the_decl 4]; try reflexivity;
    destruct low; cbn [accepts forallb]; rewrite HV by (apply ascii_check; vm_compute; reflexivity); reflexivity.
Qed.

(** ** Histograms driven by the log *)
Lemma sent_fold l : forall h, sent_histogram h l = fold_left observe (map rate_value (observed_sent l)) h.
Proof. induction l as [|a l IH]; intros h; [reflexivity|]. unfold sent_histogram in *. cbn [fold_left]. rewrite IH. destruct a; reflexivity. Qed.
Lemma recv_fold l : forall h, recv_histogram h l = fold_left observe (map rate_value (observed_recv l)) h.
Proof. induction l as [|a l IH]; intros h; [reflexivity|]. unfold recv_histogram in *. cbn [fold_left]. rewrite IH. destruct a; reflexivity. Qed.
Lemma cache_fold l : forall h, cache_histogram h l = fold_left observe (map float_of (map N.of_nat (cache_sizes l))) h.
Proof. induction l as [|a l IH]; intros h; [reflexivity|]. unfold cache_histogram in *. cbn [fold_left]. rewrite IH. destruct a; reflexivity. Qed.
Lemma connection_fold af l : forall h, connection_histogram af h l = fold_left observe (map float_of (sizes_of af l)) h.
Proof.
  induction l as [|a l IH]; intros h; [reflexivity|]. unfold connection_histogram in *. cbn [fold_left]. rewrite IH.
  destruct a; try reflexivity. unfold sizes_of. cbn [flat_map]. destruct (bytes_eqb af af0); reflexivity.
Qed.

Lemma rate_values l : List.Forall (fun n => (n <= 12500000000)%N) l -> values (map rate_value l) (map (N.mul 8) l).
Proof. intros H. induction H as [|n l Hn H IH]; cbn [map]; constructor; [apply rate_worth; lia|exact IH]. Qed.
Lemma count_values l : List.Forall (fun n => (n < 2 ^ 53)%N) l -> values (map float_of l) l.
Proof. intros H. induction H as [|n l Hn H IH]; cbn [map]; constructor; [apply count_worth; exact Hn|exact IH]. Qed.

Lemma rate_histogram l : List.Forall (fun n => (n <= 12500000000)%N) l -> exists h0 buckets sum,
  new_histogram rate_buckets = Some h0 /\
  scrape (fold_left observe (map rate_value l) h0) = (buckets, N.of_nat (length l), sum) /\
  List.Forall2 (shown (map (N.mul 8) l)) buckets rate_bounds /\
  ((8 * total l <= 2 ^ 56)%N -> worth sum (Z.of_N (8 * total l)) 1).
Proof.
  intros H. destruct (declared_scrape _ _ _ _ rate_declared (rate_values l H)) as (h0 & E0 & W0 & buckets & sum & E1 & -> & E2).
  rewrite map_length in E1. exists h0, buckets, (h_sum (fold_left observe (map rate_value l) h0)).
  split; [exact E0|]. split; [exact E1|]. split; [exact E2|]. intros HT.
  apply (histogram_sum_multiples 3 _ l); [lia|apply rate_values, H|change (2 ^ 56)%N with (8 * 2 ^ 53)%N in HT; lia|exact W0].
Qed.
Lemma count_histogram l : List.Forall (fun n => (n < 2 ^ 53)%N) l -> exists h0 buckets sum,
  new_histogram count_buckets = Some h0 /\
  scrape (fold_left observe (map float_of l) h0) = (buckets, N.of_nat (length l), sum) /\
  List.Forall2 (shown l) buckets count_bounds /\
  ((total l <= 2 ^ 53)%N -> worth sum (Z.of_N (total l)) 1).
Proof.
  intros H. destruct (declared_scrape _ _ _ _ count_declared (count_values l H)) as (h0 & E0 & W0 & buckets & sum & E1 & -> & E2).
  exists h0, buckets, (h_sum (fold_left observe (map float_of l) h0)).
  split; [exact E0|]. split; [exact E1|]. split; [exact E2|]. intros HT.
  pose proof (histogram_sum_multiples 0 (map float_of l) l h0) as K. change (2 ^ 0)%N with 1%N in K. rewrite N.mul_1_l in K.
  apply K; [lia| |exact HT|exact W0]. rewrite (map_ext _ (fun n => n) N.mul_1_l), map_id. apply count_values, H.
Qed.

(** ** Where the sum stops being exact *)
Lemma total_repeat n k : total (repeat n k) = (N.of_nat k * n)%N.
Proof. unfold total. induction k as [|k IH]; cbn [repeat fold_right]; lia. Qed.
Lemma sum_repeat k h : worth (h_sum h) 0 1 -> (N.of_nat k <= 720576)%N ->
  worth (h_sum (fold_left observe (map rate_value (repeat 12500000000%N k)) h)) (Z.of_N (N.of_nat k * 100000000000)) 1.
Proof.
  intros H0 Hk. pose proof (histogram_sum_multiples 11 (map rate_value (repeat 12500000000%N k)) (repeat 48828125%N k) h) as K.
  rewrite total_repeat in K. change (2 ^ 11)%N with 2048%N in K.
  replace (N.of_nat k * 100000000000)%N with (2048 * (N.of_nat k * 48828125))%N by lia.
  apply K; [lia| |lia|exact H0]. clear. induction k as [|k IH]; cbn [repeat map]; constructor; [|exact IH].
  change (2048 * 48828125)%N with (8 * 12500000000)%N. apply rate_worth. lia.
Qed.
Lemma sum_drifts : exists l, List.Forall (fun n => (n <= 12500000000)%N) l /\ forall h0, new_histogram rate_buckets = Some h0 ->
  ~ worth (h_sum (fold_left observe (map rate_value l) h0)) (Z.of_N (8 * total l)) 1.
Proof.
  exists (repeat 12500000000%N (N.to_nat 720576) ++ [1%N]). split.
  - apply List.Forall_app. split; [|one; lia]. apply List.Forall_forall. intros x Hx. apply repeat_spec in Hx as ->. lia.
  - intros h0 E0. rewrite total_snoc, total_repeat, map_app, fold_left_app, N2Nat.id. cbn [map fold_left observe h_sum].
    assert (W0 : worth (h_sum h0) 0 1).
    { unfold new_histogram in E0. destruct (check_bounds rate_buckets); [|discriminate E0]. injection E0 as <-. reflexivity. }
    pose proof (sum_repeat (N.to_nat 720576) h0 W0) as W. rewrite N2Nat.id in W. specialize (W ltac:(lia)).
    revert W. generalize (h_sum (fold_left observe (map rate_value (repeat 12500000000%N (N.to_nat 720576))) h0)). intros s W.
    assert (W' : worth (float_of (720576 * 100000000000)) (Z.of_N (720576 * 100000000000)) 1) by (apply worth_check; vm_compute; reflexivity).
    rewrite (worth_unique _ _ _ W W') by reflexivity. intros K.
    assert (K' : worth (fadd (float_of (720576 * 100000000000)) (rate_value 1)) (Z.of_N (720576 * 100000000000)) 1) by (apply worth_check; vm_compute; reflexivity).
    revert K K'. generalize (fadd (float_of (720576 * 100000000000)) (rate_value 1)). intros f K K'.
    destruct f as [b|b| |[|] m e]; cbn [worth] in K, K'; try contradiction; [discriminate K|].
    destruct K as [_ K], K' as [_ K']. rewrite K in K'. apply Z.mul_cancel_r in K'; [discriminate K'|]. apply Z.pow_nonzero; lia.
Qed.

(** ** Totals *)
Lemma sent_total w cf bs b : fair_order w -> s_dead (loop w cf (bs ++ [b]) new_saver) = false -> disciplined (rounds cf (bs ++ [b])) -> due bs b = true ->
  let before := sum_N (observed_sent (s_log (loop w cf bs new_saver))) in
  let G := grand_total (rounds cf (bs ++ [b])) in (before <= G.1)%N -> (G.1 <= before + most)%N -> (G.1 <= 2 ^ 53)%N ->
  total (observed_sent (s_log (loop w cf (bs ++ [b]) new_saver))) = G.1.
Proof.
  intros Hw Hd HD Hdue before G H1 H2 H3. destruct (block_totals w cf Hw bs b Hd HD) as (e & L & R). fold G in R.
  rewrite L, observed_sent_app, <- (proj1 (observed_reports e)), R, Hdue. unfold expected. fold before.
  cbn [fst snd]. rewrite (N.mod_small G.1) by (change (2 ^ 64)%N with (2048 * 2 ^ 53)%N; lia).
  unfold expected_one at 1.
  replace (before <=? G.1)%N with true by lia. replace (G.1 <=? before + most)%N with true by lia.
  replace (before + most <? 2 ^ 64)%N with true by (unfold most; change (2 ^ 53)%N with 9007199254740992%N in *; change (2 ^ 64)%N with 18446744073709551616%N; lia).
  cbn [andb]. set (x := expected_one _ _ AObsRecv AErrRecv).
  assert (E : observed_sent [AObsSent (G.1 - before); x] = [(G.1 - before)%N]).
  { unfold x, expected_one. destruct (_ && _); reflexivity. }
  rewrite E, total_snoc. change (total (observed_sent (s_log (loop w cf bs new_saver)))) with before. lia.
Qed.
Lemma recv_total w cf bs b : fair_order w -> s_dead (loop w cf (bs ++ [b]) new_saver) = false -> disciplined (rounds cf (bs ++ [b])) -> due bs b = true ->
  let before := sum_N (observed_recv (s_log (loop w cf bs new_saver))) in
  let G := grand_total (rounds cf (bs ++ [b])) in (before <= G.2)%N -> (G.2 <= before + most)%N -> (G.2 <= 2 ^ 53)%N ->
  total (observed_recv (s_log (loop w cf (bs ++ [b]) new_saver))) = G.2.
Proof.
  intros Hw Hd HD Hdue before G H1 H2 H3. destruct (block_totals w cf Hw bs b Hd HD) as (e & L & R). fold G in R.
  rewrite L, observed_recv_app, <- (proj2 (observed_reports e)), R, Hdue. unfold expected. fold before.
  cbn [fst snd]. rewrite (N.mod_small G.2) by (change (2 ^ 64)%N with (2048 * 2 ^ 53)%N; lia).
  unfold expected_one at 2.
  replace (before <=? G.2)%N with true by lia. replace (G.2 <=? before + most)%N with true by lia.
  replace (before + most <? 2 ^ 64)%N with true by (unfold most; change (2 ^ 53)%N with 9007199254740992%N in *; change (2 ^ 64)%N with 18446744073709551616%N; lia).
  cbn [andb]. set (x := expected_one _ _ AObsSent AErrSent).
  assert (E : observed_recv [x; AObsRecv (G.2 - before)] = [(G.2 - before)%N]).
  { unfold x, expected_one. destruct (_ && _); reflexivity. }
  rewrite E, total_snoc. change (total (observed_recv (s_log (loop w cf bs new_saver)))) with before. lia.
Qed.
