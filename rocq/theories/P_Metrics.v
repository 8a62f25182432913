(** Property C59: what the metrics count. *)
From Coq Require Import Strings.String.
From stdpp Require Import gmap relations.
From Coq Require Import NArith ZArith Lia.
From Verif Require Import GoBase Layout Inetdiag Netlink Snapshot SpecSnapshot Saver Collector SpecCollector CollectorFacts Metrics SpecMetrics MetricsFacts.
From Verif Require Import EventName EventServer SpecEvents SpecClient System SystemInv SystemFiles Program SpecProgram ProgramFacts ProgramRuns P_Saver P_System P_Program Samples.
Local Open Scope list_scope.

(** The functions with metrics do what the functions without do. *)
Theorem C59_unchanged :
  (forall so seq family, snd (one_type_m so seq family) = one_type so seq family) /\
  (forall v n, snd (collect_m v n) = collect v n) /\ (forall ar, snd (decode_m ar) = decode ar).
Proof. split; [exact one_type_same|split; [exact collect_same|exact decode_same]]. Qed.
Print Assumptions C59_unchanged.

(** ** Dumps *)
(** A dump that returns: the replies up to the one that ended it are each counted
    once, then the duration and the number of messages are observed once, under
    the name of the family. *)
Theorem C59_dump : forall so seq family pid l us res err af,
  (family < 256)%N -> opened so (dump_request seq family) pid -> replies (so_receive so) l -> family_name family af ->
  one_type_m so seq family = (us, Ret (res, err)) ->
  exists before x after es n, l = map Message before ++ x :: after /\ Forall (part seq pid) before /\ ends seq pid before x res err /\
    charges seq pid (map Message before ++ [x]) es n /\ us = errors es ++ observations af n /\
    (forall m, x = Message m -> n = length res).
Proof.
  intros so seq family pid l us res err af Hf Ho Hl Ha E. rewrite (one_type_m_opened _ _ _ _ Hf Ho) in E.
  destruct (receive_loop_m seq pid (so_receive so) []) as [[u n] o] eqn:Er. injection E as <- ->.
  destruct (receive_charges _ _ _ _ _ _ _ _ _ Hl Er) as (before & x & after & ls & k & -> & Hb & He & C & -> & -> & L).
  destruct (af_label_name family) as (af' & -> & Ha'). rewrite (family_name_unique _ _ _ Ha Ha').
  exists before, x, after, ls, k. auto 10.
Qed.
Print Assumptions C59_dump.

(** A dump that could not be started is observed too, with no connections. *)
Theorem C59_not_opened : forall so seq family af e, (family < 256)%N -> family_name family af ->
  so_subscribe so = Some e
  \/ so_subscribe so = None /\ so_send so (dump_request seq family) = Some e
  \/ so_subscribe so = None /\ so_send so (dump_request seq family) = None /\ so_pid so = Fail e ->
  one_type_m so seq family = (observations af 0, Ret ([], Some e)).
Proof.
  intros so seq family af e Hf Ha H. destruct (af_label_name family) as (af' & El & Ha'). rewrite (family_name_unique _ _ _ Ha Ha').
  unfold one_type_m. rewrite El, (request_bytes _ _ Hf). destruct H as [H|[(H1 & H2)|(H1 & H2 & H3)]].
  - rewrite H. reflexivity.
  - rewrite H1, H2. reflexivity.
  - rewrite H1, H2, H3. reflexivity.
Qed.
Print Assumptions C59_not_opened.

(** Every iteration of Run is observed: IPv6, IPv4, the polling interval; the
    number of connections observed is the number of messages in the block if
    there are any. *)
Theorem C59_iterations : forall v reps bs, (forall i b, bs !! i = Some b -> due v reps i /\ block_of v i b) ->
  exists us, Forall2 iteration bs us /\ run_metrics v reps (length bs) 0 = concat (map (fun u => u ++ [Polling]) us).
Proof. intros v reps bs H. exact (run_metrics_blocks v reps bs 0 H). Qed.
Print Assumptions C59_iterations.

Example c59_iterations_case :
  run_metrics v0 4 9 0 =
    (observations "ipv6" 0 ++ observations "ipv4" 1 ++ [Polling]) ++ (observations "ipv6" 0 ++ observations "ipv4" 1 ++ [Polling]) ++
    (observations "ipv6" 0 ++ observations "ipv4" 2 ++ [Polling]) ++ (observations "ipv6" 0 ++ observations "ipv4" 1 ++ [Polling]) /\
  exists b, due v0 4 0 /\ block_of v0 0 b.
Proof.
  split; [vm_compute; reflexivity|]. destruct (v0_answers 0) as (b & H). exists b. split; [split; [right; lia|reflexivity]|exact H].
Qed.

(** Three replies: a message, a refusal, a message of another request. *)
Definition mm (type flags seq pid : N) (data : bytes) : nlmsg := mkmsg (mkhdr 20 type flags seq pid) (mkslice data []).
Definition refusing : socket :=
  mksocket None (fun _ => None) (Ret 99%N) [Ret [mm 20 2 7 99 []; mm 2 2 7 99 [xff; xff; xff; xff]]; Ret [mm 20 2 8 99 []]].
Example c59_case : one_type_m refusing 7 10 =
  (errors ["NLMSG_ERROR"; "wrong seq num"]%string ++ observations "ipv6" 2, Ret ([mm 20 2 7 99 []; mm 2 2 7 99 [xff; xff; xff; xff]], Some ErrBadSequence)) /\
  opened refusing (dump_request 7 10) 99 /\ family_name 10 "ipv6" /\
  exists l, replies (so_receive refusing) l.
Proof.
  split; [vm_compute; reflexivity|]. split; [split; [reflexivity|split; reflexivity]|]. split; [right; left; split; reflexivity|].
  eexists. apply rp_batch, rp_batch, rp_end.
Qed.

(** The observed number of connections need not be the number handed over: not
    after a failing Receive, where the messages before it are dropped, and a
    refusal of the kernel counts as a connection. *)
Theorem C59_connections_refuted : ~ (forall so seq family us res err af n,
  one_type_m so seq family = (us, Ret (res, err)) -> ConnectionCount af n ∈ us -> n = length res).
Proof.
  intros H.
  assert (K : 1 = length (@nil nlmsg)).
  { eapply (H (mksocket None (fun _ => None) (Ret 99%N) [Ret [mm 20 2 7 99 []]; Fail ErrIO]) 7%N 2%N _ [] (Some ErrIO) (str "ipv4") 1).
    - vm_compute. reflexivity.
    - right. left. }
  discriminate K.
Qed.
Print Assumptions C59_connections_refuted.

(** ** Decode *)
(** A record that is decoded: every attribute longer than its struct is counted
    once under the name of the struct, every attribute of a type that is not
    decoded once under its name or number, except INET_DIAG_MD5SIG, and nothing
    else is. *)
Theorem C59_decode : forall ar us x, decode_m ar = (us, Ret x) -> tally 0 (ar_attrs ar) us.
Proof.
  intros ar us x H. unfold decode_m in H. pose proof (decode_attrs_tally (ar_attrs ar) 0) as T.
  revert H T. generalize (decode_attrs_m 0 (ar_attrs ar)) parse_idm. intros f parse H T.
  assert (K : exists r, (let (u, y) := f r in (u, bind y (fun s => Ret (ar_meta ar, s)))) = (us, Ret x)).
  { destruct (ar_meta ar), (ar_raw ar) as [raw|]; try discriminate H.
    - destruct (parse (Some raw)); try discriminate H. eexists. exact H.
    - eexists. exact H.
    - destruct (parse (Some raw)); try discriminate H. eexists. exact H. }
  destruct K as (r & K). destruct (f r) as [u y] eqn:E. injection K as -> K. destruct y as [s|e| |]; try discriminate K. exact (T _ _ _ E).
Qed.
Print Assumptions C59_decode.

Definition wide : archival :=
  mkar 0 None [Some (mkslice [] []); None; Some (mkslice (repeat x01 233) []); Some (mkslice (repeat x01 16) []); None; None; None; None; None; None;
               None; Some (mkslice [x01] []); None; None; None; None; None; None; Some (mkslice [x01] []); Some (mkslice [x01] [])] (Some (mkmeta [] 0 0)).
Example c59_decode_case : exists x, decode_m wide =
  ([NotDecoded (str "0"); LargeNetlinkMsg (str "TCPInfo"); NotDecoded (str "INET_DIAG_SKV6ONLY"); NotDecoded (str "19")], Ret x).
Proof. eexists. vm_compute. reflexivity. Qed.

(** An attribute that is not decoded is not always counted. *)
Theorem C59_skipped_refuted : ~ (forall ar us x t, decode_m ar = (us, Ret x) -> attr ar t <> None -> undecoded t = true ->
  exists label, NotDecoded label ∈ us).
Proof.
  intros H.
  destruct (H (mkar 0 None (repeat None 18 ++ [Some (mkslice [x01] [])]) (Some (mkmeta [] 0 0))) [] _ 18 eq_refl) as (l & K).
  - vm_compute. discriminate.
  - reflexivity.
  - inversion K.
Qed.
Print Assumptions C59_skipped_refuted.

(** ** Events *)
Definition is_created (r : report) : bool := match r with Created _ _ _ => true | Deleted _ _ => false end.
(** The event server counts one "open" for every connection the saver has
    reported as opened, and nothing else. *)
Theorem C59_flow : forall w cf cap anon line hline v reps marshal g,
  possible w cf cap anon line hline v reps true marshal g ->
  concat (map flow_metrics (log (g_srv g))) =
  repeat (FlowEvents (str "open")) (length (List.filter is_created (reports (uuid_prefix w) (executed (g_sys g))))).
Proof.
  intros w cf cap anon line hline v reps marshal g Hp.
  pose proof (submitted_reports w cf cap anon line hline v reps true marshal g Hp eq_refl) as S.
  assert (A : forall l, concat (map flow_metrics l) = concat (map (fun e => flow_metrics (OSubmit e)) (submitted l))).
  { induction l as [|o l IH]; [reflexivity|]. destruct o; cbn [map concat]; rewrite IH; reflexivity. }
  rewrite A, S. generalize (reports (uuid_prefix w) (executed (g_sys g))). intros l.
  induction l as [|r l IH]; [reflexivity|]. cbn [map concat]. rewrite IH. destruct r; reflexivity.
Qed.
Print Assumptions C59_flow.

(** Closes are never counted, although the metric is described as the number of
    flow events by event type. *)
Theorem C59_close_refuted : ~ (forall w cf cap anon line hline v reps marshal g,
  possible w cf cap anon line hline v reps true marshal g ->
  length (List.filter (fun m => match m with FlowEvents _ => true | _ => false end) (concat (map flow_metrics (log (g_srv g))))) =
  length (reports (uuid_prefix w) (executed (g_sys g)))).
Proof. intros H. specialize (H _ _ _ _ _ _ _ _ _ _ (play0_possible (connect ++ [(2000, Notify :: workers)]))). vm_compute in H. discriminate H. Qed.
Print Assumptions C59_close_refuted.
Example c59_flow_case : concat (map flow_metrics (log (g_srv calm))) = [FlowEvents (str "open"); FlowEvents (str "open")] /\
  length (reports (uuid_prefix w0) (executed (g_sys calm))) = 4.
Proof. split; vm_compute; reflexivity. Qed.
