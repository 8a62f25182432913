(** Property C67: what Prometheus shows. *)
From Coq Require Import Strings.String.
From stdpp Require Import gmap.
From Coq Require Import NArith ZArith Lia Floats.SpecFloat.
From Verif Require Import GoBase GoTime Netlink Metrics EventServer Collector Cache SpecCache Saver SpecSaver SpecTotals SaverTotals SaverSizes Samples P_Saver P_Totals
  Prom SpecProm FloatFacts PromFacts PromSaver PromSaverFacts.
Local Open Scope list_scope.

(** ** Declarations and labels *)
(** Loading package metrics does not panic: names and labels are valid, no name is used
    twice, and the bounds of every histogram increase. *)
Theorem C67_registers : registers declarations = true /\ List.NoDup (map d_name declarations) /\
  List.Forall (fun d => forall bk, d_buckets d = Some bk -> exists h, new_histogram bk = Some h) declarations.
Proof.
  split; [vm_compute; reflexivity|]. split.
  - cbn [map d_name declarations]. repeat (constructor; [intros H; repeat (destruct H as [H|H]; [discriminate H|]); exact H|]). constructor.
  - repeat constructor; intros bk [= <-]; eexists; vm_compute; reflexivity.
Qed.
Print Assumptions C67_registers.

(** No update panics because of its labels, in any run of the collector, when any
    record is decoded, in any state of the event server, and for any action of the saver. *)
Theorem C67_labels : forall valid, (forall s, ascii s -> valid s = true) ->
  let known u := exists d, In d declarations /\ d_name d = fst u /\ accepts valid d (snd u) = true in
  (forall v reps fuel loops m, In m (run_metrics v reps fuel loops) -> known (use m)) /\
  (forall so seq family m, In m (one_type_m so seq family).1 -> known (use m)) /\
  (forall ar m, In m (decode_m ar).1 -> known (use m)) /\
  (forall o m, In m (flow_metrics o) -> known (use m)) /\
  (forall a u, saver_use a = Some u -> known u).
Proof.
  intros valid HV known.
  assert (K : forall l m, List.Forall plain l -> In m l -> known (use m)).
  { intros l m H I. rewrite List.Forall_forall in H. exact (plain_taken valid m HV (H m I)). }
  split; [intros v reps fuel loops m; apply K, run_plain|]. split; [intros so seq family m; apply K, one_type_plain|].
  split; [intros ar m; apply K, decode_plain|]. split; [intros o m; apply K, flow_plain|].
  intros a u. exact (saver_taken valid a u HV).
Qed.
Print Assumptions C67_labels.
Example c67_labels_case : accepts (fun _ => true) (mkdecl (str "tcpinfo_error_total") [str "type"] None) (By [(str "af", str "x")]) = false /\
  accepts (fun _ => true) (mkdecl (str "tcpinfo_error_total") [str "type"] None) (Of [str "a"; str "b"]) = false /\
  saver_use (AErrSent true) = Some (str "tcpinfo_error_total", Of [str "totalSent < reportedSent"]) /\
  registers (mkdecl (str "tcpinfo_error_total") [str "a"] None :: declarations) = false.
Proof. vm_compute. repeat split. Qed.

(** ** Rates *)
(** The histograms of the rates after any history: the bucket with bound b counts the
    reports of at most b bits, all of them are counted, and the sum is the number of
    bits reported, exactly, up to 2^56 bits. *)
Theorem C67_rates : forall w cf, fair_order w -> forall bs, s_dead (loop w cf bs new_saver) = false ->
  let l := s_log (loop w cf bs new_saver) in
  exists h0, new_histogram rate_buckets = Some h0 /\
  (exists buckets sum, scrape (sent_histogram h0 l) = (buckets, N.of_nat (length (observed_sent l)), sum) /\
    List.Forall2 (shown (map (N.mul 8) (observed_sent l))) buckets rate_bounds /\
    ((8 * total (observed_sent l) <= 2 ^ 56)%N -> worth sum (Z.of_N (8 * total (observed_sent l))) 1)) /\
  (exists buckets sum, scrape (recv_histogram h0 l) = (buckets, N.of_nat (length (observed_recv l)), sum) /\
    List.Forall2 (shown (map (N.mul 8) (observed_recv l))) buckets rate_bounds /\
    ((8 * total (observed_recv l) <= 2 ^ 56)%N -> worth sum (Z.of_N (8 * total (observed_recv l))) 1)).
Proof.
  intros w cf Hw bs Hd l. pose proof (observations_bounded w cf Hw bs Hd) as B. apply List.Forall_app in B as [B1 B2].
  destruct (rate_histogram _ B1) as (h0 & b1 & s1 & E0 & E1 & E2 & E3).
  destruct (rate_histogram _ B2) as (h0' & b2 & s2 & E0' & F1 & F2 & F3).
  rewrite E0 in E0'. injection E0' as <-. exists h0. split; [exact E0|]. split.
  - exists b1, s1. rewrite sent_fold. split; [exact E1|]. split; [exact E2|exact E3].
  - exists b2, s2. rewrite recv_fold. split; [exact F1|]. split; [exact F2|exact F3].
Qed.
Print Assumptions C67_rates.

(** metrics/metrics.go:103 and 126: the sum field is the total, in bits. *)
Theorem C67_total_bits : forall w cf, fair_order w -> forall bs b,
  s_dead (loop w cf (bs ++ [b]) new_saver) = false -> disciplined (rounds cf (bs ++ [b])) -> due bs b = true ->
  let l0 := s_log (loop w cf bs new_saver) in
  let l := s_log (loop w cf (bs ++ [b]) new_saver) in
  let G := grand_total (rounds cf (bs ++ [b])) in
  exists h0, new_histogram rate_buckets = Some h0 /\
  ((sum_N (observed_sent l0) <= G.1 <= sum_N (observed_sent l0) + 12500000000)%N -> (G.1 <= 2 ^ 53)%N ->
   worth (h_sum (sent_histogram h0 l)) (8 * Z.of_N G.1) 1) /\
  ((sum_N (observed_recv l0) <= G.2 <= sum_N (observed_recv l0) + 12500000000)%N -> (G.2 <= 2 ^ 53)%N ->
   worth (h_sum (recv_histogram h0 l)) (8 * Z.of_N G.2) 1).
Proof.
  intros w cf Hw bs b Hd HD Hdue l0 l G. destruct (C67_rates w cf Hw (bs ++ [b]) Hd) as (h0 & E0 & (b1 & s1 & E1 & _ & E3) & (b2 & s2 & F1 & _ & F3)).
  exists h0. split; [exact E0|]. unfold scrape in E1, F1. injection E1 as _ _ E1. injection F1 as _ _ F1. split.
  - intros [H1 H2] H3. pose proof (sent_total w cf bs b Hw Hd HD Hdue H1 H2 H3) as T. fold l G in T. fold l in E1, E3.
    rewrite T in E3. rewrite E1. replace (8 * Z.of_N G.1)%Z with (Z.of_N (8 * G.1)) by lia. apply E3. change (2 ^ 56)%N with (8 * 2 ^ 53)%N. lia.
  - intros [H1 H2] H3. pose proof (recv_total w cf bs b Hw Hd HD Hdue H1 H2 H3) as T. fold l G in T. fold l in F1, F3.
    rewrite T in F3. rewrite F1. replace (8 * Z.of_N G.2)%Z with (Z.of_N (8 * G.2)) by lia. apply F3. change (2 ^ 56)%N with (8 * 2 ^ 53)%N. lia.
Qed.
Print Assumptions C67_total_bits.

(** The history of C25: reports of 10, 21, 4, 0 and 101 bytes. *)
Example c67_rates_case : exists h0, new_histogram rate_buckets = Some h0 /\
  due bs25 b25 = true /\
  let h := sent_histogram h0 (s_log (loop w0 cf0 (bs25 ++ [b25]) new_saver)) in
  h_number h = 5%N /\ firstn 5 (map snd (cumulate 0 (h_bounds h) (h_counts h))) = [1; 1; 1; 3; 5]%N /\
  h_sum h = float_of (8 * 136).
Proof. eexists. split; [vm_compute; reflexivity|]. vm_compute. repeat split. Qed.

(** Beyond 2^56 bits the sum may lose bits: after 720576 reports of 12.5 GB, one of
    one byte changes nothing. *)
Theorem C67_sum_refuted : ~ (forall l, List.Forall (fun n => (n <= 12500000000)%N) l -> exists h0, new_histogram rate_buckets = Some h0 /\
  worth (h_sum (fold_left observe (map rate_value l) h0)) (Z.of_N (8 * total l)) 1).
Proof. intros H. destruct sum_drifts as (l & Hl & K). destruct (H l Hl) as (h0 & E & W). exact (K h0 E W). Qed.
Print Assumptions C67_sum_refuted.

(** ** Numbers of connections *)
(** The size of the cache after every round. *)
Theorem C67_cache_sizes : forall w cf, fair_order w -> forall bs, s_dead (loop w cf bs new_saver) = false ->
  let sizes := map (fun b => N.of_nat (length (remove_dups (cookies_of (accepted cf b))))) bs in
  List.Forall (fun n => (n < 2 ^ 53)%N) sizes ->
  exists h0 buckets sum, new_histogram count_buckets = Some h0 /\
    scrape (cache_histogram h0 (s_log (loop w cf bs new_saver))) = (buckets, N.of_nat (length bs), sum) /\
    List.Forall2 (shown sizes) buckets count_bounds /\ ((total sizes <= 2 ^ 53)%N -> worth sum (Z.of_N (total sizes)) 1).
Proof.
  intros w cf Hw bs Hd sizes HS. destruct (count_histogram sizes HS) as (h0 & bk & sum & E0 & E1 & E2 & E3).
  exists h0, bk, sum. split; [exact E0|]. split; [|split; assumption].
  rewrite cache_fold, (C27_cache_sizes w cf Hw bs Hd), (map_map _ N.of_nat). fold sizes. rewrite E1. unfold sizes. rewrite map_length. reflexivity.
Qed.
Print Assumptions C67_cache_sizes.
Example c67_cache_case : s_dead (loop w0 cf0 bs0 new_saver) = false /\
  exists h0, new_histogram count_buckets = Some h0 /\
  firstn 2 (map snd (scrape (cache_histogram h0 (s_log (loop w0 cf0 bs0 new_saver)))).1.1) = [3; 4]%N.
Proof. split; [vm_compute; reflexivity|]. eexists. split; vm_compute; reflexivity. Qed.

(** The number of connections of a dump, for each address family. *)
Theorem C67_connection_counts : forall af l, List.Forall (fun n => (n < 2 ^ 53)%N) (sizes_of af l) ->
  exists h0 buckets sum, new_histogram count_buckets = Some h0 /\
    scrape (connection_histogram af h0 l) = (buckets, N.of_nat (length (sizes_of af l)), sum) /\
    List.Forall2 (shown (sizes_of af l)) buckets count_bounds /\
    ((total (sizes_of af l) <= 2 ^ 53)%N -> worth sum (Z.of_N (total (sizes_of af l))) 1).
Proof.
  intros af l H. destruct (count_histogram _ H) as (h0 & bk & sum & E). exists h0, bk, sum. rewrite connection_fold. exact E.
Qed.
Print Assumptions C67_connection_counts.
Example c67_connections_case : let l := [ConnectionCount (str "ipv6") 12; ConnectionCount (str "ipv4") 2; Polling; ConnectionCount (str "ipv6") 13] in
  sizes_of (str "ipv6") l = [12; 13]%N /\ exists h0, new_histogram count_buckets = Some h0 /\
  firstn 10 (map snd (scrape (connection_histogram (str "ipv6") h0 l)).1.1) = [0; 0; 0; 0; 0; 0; 0; 0; 1; 2]%N.
Proof. split; [reflexivity|]. eexists. split; vm_compute; reflexivity. Qed.
