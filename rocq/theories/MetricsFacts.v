(** Proofs for the metrics of the collector, of Decode and of the event server. *)
From Coq Require Import Strings.String.
From stdpp Require Import base list.
From Coq Require Import NArith ZArith Lia.
From Verif Require Import GoBase GoBaseFacts Layout Tcp Inetdiag Netlink Snapshot SpecSnapshot SnapshotFacts Saver Collector SpecCollector CollectorFacts Metrics SpecMetrics.
Local Open Scope list_scope.

(** ** Nothing else changes *)
Lemma process_single_same m seq pid : snd (process_single_m m seq pid) = process_single m seq pid.
Proof.
  unfold process_single_m, process_single. destruct (negb _); [reflexivity|]. destruct (negb _); [reflexivity|].
  destruct (N.eqb _ NLMSG_DONE); [reflexivity|]. destruct (N.eqb _ NLMSG_ERROR); [|reflexivity].
  destruct (Nat.ltb _ 4); [reflexivity|]. destruct (N.eqb (le _) 0); reflexivity.
Qed.
Lemma one_batch_same seq pid msgs res : snd (one_batch_m seq pid msgs res) = one_batch seq pid msgs res.
Proof.
  revert res. induction msgs as [|m msgs IH]; intros res; [reflexivity|]. cbn [one_batch_m one_batch].
  rewrite <- process_single_same. destruct (process_single_m m seq pid) as [u [[m' cont] err]]. cbn [snd].
  destruct err; [reflexivity|]. destruct cont; [|reflexivity].
  specialize (IH (match m' with Some m' => res ++ [m'] | None => res end)).
  destruct (one_batch_m seq pid msgs _). exact IH.
Qed.
Lemma receive_loop_same seq pid rs res : snd (receive_loop_m seq pid rs res) = receive_loop seq pid rs res.
Proof.
  revert res. induction rs as [|[ms|e| |] rs IH]; intros res; try reflexivity. cbn [receive_loop_m receive_loop].
  rewrite <- one_batch_same. destruct (one_batch_m seq pid ms res) as [u [r|[r e]]]; cbn [snd]; [|reflexivity].
  specialize (IH r). destruct (receive_loop_m seq pid rs r) as [[u' n] o]. exact IH.
Qed.
Lemma one_type_same so seq family : snd (one_type_m so seq family) = one_type so seq family.
Proof.
  unfold one_type_m, one_type. destruct (so_subscribe so); [reflexivity|]. destruct (so_send so _); [reflexivity|].
  destruct (so_pid so) as [pid|e| |]; try reflexivity. rewrite <- receive_loop_same.
  destruct (receive_loop_m _ pid (so_receive so) []) as [[u n] o]. reflexivity.
Qed.
Lemma collect_same v n : snd (collect_m v n) = collect v n.
Proof.
  unfold collect_m, collect. rewrite <- !one_type_same. destruct (one_type_m (v_socket v n AF_INET6) _ _) as [u6 [[r6 e6]|e| |]]; try reflexivity.
  cbn [snd bind]. destruct (one_type_m (v_socket v n AF_INET) _ _) as [u4 [[r4 e4]|e| |]]; reflexivity.
Qed.
Lemma decode_attrs_same attrs : forall t r, snd (decode_attrs_m t attrs r) = decode_attrs t attrs r.
Proof.
  induction attrs as [|[g|] attrs IH]; intros t r; [reflexivity| |apply IH]. cbn [decode_attrs_m decode_attrs].
  destruct (decode_attr t (vis g) r) as [[r1 ok]|e| |]; try reflexivity. cbn [bind].
  specialize (IH (S t) (set_bits (N.lor (sn_observed r1) (attr_bit t)) (if ok then sn_notparsed r1 else N.lor (sn_notparsed r1) (attr_bit t)) r1)).
  destruct (decode_attrs_m (S t) attrs _). exact IH.
Qed.
Lemma decode_same ar : snd (decode_m ar) = decode ar.
Proof.
  unfold decode_m, decode. destruct (ar_meta ar), (ar_raw ar) as [raw|]; try reflexivity.
  - destruct (parse_idm (Some raw)) as [m0|e| |]; try reflexivity. cbn [bind]. rewrite <- decode_attrs_same. destruct (decode_attrs_m 0 _ _). reflexivity.
  - cbn [bind]. rewrite <- decode_attrs_same. destruct (decode_attrs_m 0 _ _). reflexivity.
  - destruct (parse_idm (Some raw)) as [m0|e| |]; try reflexivity. cbn [bind]. rewrite <- decode_attrs_same. destruct (decode_attrs_m 0 _ _). reflexivity.
Qed.

(** ** Dumps *)
Definition kept (m' : option nlmsg) : nat := match m' with Some _ => 1 | None => 0 end.
Lemma process_charged m seq pid : exists ls, fst (process_single_m m seq pid) = errors ls /\
  charged seq pid (Message m) ls (kept (fst (fst (process_single m seq pid)))).
Proof.
  unfold process_single_m, process_single.
  destruct (N.eqb_spec (h_seq (m_header m)) seq) as [Hs|Hs]; cbn [negb]; [|eexists [_]; split; [reflexivity|by constructor]].
  destruct (N.eqb_spec (h_pid (m_header m)) pid) as [Hp|Hp]; cbn [negb]; [|eexists [_]; split; [reflexivity|by constructor]].
  unfold NLMSG_DONE, NLMSG_ERROR.
  destruct (N.eqb_spec (h_type (m_header m)) 3) as [H3|H3]; [exists []; split; [reflexivity|apply ch_end; auto]|].
  destruct (N.eqb_spec (h_type (m_header m)) 2) as [H2|H2].
  - destruct (length (vis (m_data m)) <? 4) eqn:El.
    + exists []. split; [reflexivity|]. apply ch_end; auto. right. split; [exact H2|]. left. by apply Nat.ltb_lt.
    + destruct (data4 _ El) as (a & b & c & d & r & Hr). rewrite Hr. change (sub 0 4 (a :: b :: c :: d :: r)) with [a; b; c; d].
      destruct (N.eqb_spec (le [a; b; c; d]) 0) as [Hz|Hz].
      * exists []. split; [reflexivity|]. apply ch_end; auto. right. split; [exact H2|]. right.
        apply le_zero in Hz as (-> & -> & -> & ->). exists r. exact Hr.
      * exists ["NLMSG_ERROR"%string]. split; [reflexivity|].
        assert (K : charged seq pid (Message m) ["NLMSG_ERROR"%string] 1).
        { apply (ch_error seq pid m a b c d); auto; [exists r; exact Hr|]. intros X. apply Hz, le_zero, X. }
        destruct (N.eqb _ 0); exact K.
  - exists []. split; [reflexivity|]. assert (K : charged seq pid (Message m) [] 1) by (apply ch_answer; auto). destruct (N.eqb _ 0); exact K.
Qed.
Lemma errors_app a b : errors (a ++ b) = errors a ++ errors b.
Proof. apply map_app. Qed.
Lemma charges_app seq pid l l' a b n n' : charges seq pid l a n -> charges seq pid l' b n' -> charges seq pid (l ++ l') (a ++ b) (n + n').
Proof.
  intros H H'. induction H as [|x l e es k ks C _ IH]; [exact H'|]. cbn [app]. rewrite <- app_assoc, <- Nat.add_assoc. by constructor.
Qed.
Lemma charges_one seq pid x a n : charged seq pid x a n -> charges seq pid [x] a n.
Proof. intros H. pose proof (chs_cons seq pid x [] a [] n 0 H (chs_nil seq pid)) as C. by rewrite app_nil_r, Nat.add_0_r in C. Qed.

Lemma one_batch_m_parts seq pid ms res : Forall (part seq pid) ms ->
  exists ls, one_batch_m seq pid ms res = (errors ls, inl (res ++ ms)) /\ charges seq pid (map Message ms) ls (length ms).
Proof.
  intros H. revert res. induction H as [|m ms Hm _ IH]; intros res; cbn [one_batch_m].
  - exists []. rewrite app_nil_r. split; [reflexivity|constructor].
  - destruct (process_charged m seq pid) as (l1 & E1 & C1). pose proof (process_single_same m seq pid) as S. rewrite (process_part _ _ _ Hm) in S, C1.
    destruct (process_single_m m seq pid) as [u [[m' cont] err]]. cbn [fst snd] in E1, S. injection S as -> -> ->. subst u.
    destruct (IH (res ++ [m])) as (l2 & E2 & C2). rewrite E2, <- app_assoc. exists (l1 ++ l2). rewrite errors_app. split; [reflexivity|].
    cbn [map length]. change (S (length ms)) with (1 + length ms). by constructor.
Qed.
Lemma one_batch_m_ends seq pid ms m rest pre res err : Forall (part seq pid) ms -> ends seq pid (pre ++ ms) (Message m) res err ->
  exists ls k, one_batch_m seq pid (ms ++ m :: rest) pre = (errors ls, inr (res, err)) /\
    charges seq pid (map Message (ms ++ [m])) ls k /\ length res = length pre + k.
Proof.
  intros H. revert pre. induction H as [|x ms Hx _ IH]; intros pre He; cbn [one_batch_m app].
  - rewrite app_nil_r in He. destruct (process_charged m seq pid) as (l1 & E1 & C1). pose proof (process_single_same m seq pid) as S.
    destruct (process_ends _ _ _ _ _ _ He) as (m1 & P & H1 & H2). rewrite P in S, C1.
    destruct (process_single_m m seq pid) as [u [[m' cont] err']]. cbn [fst snd] in E1, S. injection S as -> -> ->. subst u.
    exists l1, (kept m1). cbn [map app].
    assert (Hz : err <> None -> m1 = None).
    { intros Hn. unfold process_single in P. destruct (negb _); [by injection P as <-|]. destruct (negb _); [by injection P as <-|].
      destruct (N.eqb _ NLMSG_DONE); [by injection P as <-|]. destruct (N.eqb _ NLMSG_ERROR).
      - destruct (Nat.ltb _ 4); [by injection P as <-|]. destruct (N.eqb (le _) 0); [by injection P as <-|].
        destruct (N.eqb _ 0); [|discriminate P]. by injection P as _ <-.
      - destruct (N.eqb _ 0); [|discriminate P]. by injection P as _ <-. }
    destruct err as [e|].
    + rewrite (Hz ltac:(discriminate)) in C1 |- *. rewrite (H2 ltac:(discriminate)). split; [reflexivity|].
      split; [by apply charges_one|]. cbn. lia.
    + rewrite (H1 eq_refl). split; [reflexivity|]. split; [by apply charges_one|]. destruct m1; cbn [kept]; [rewrite app_length; reflexivity|lia].
  - destruct (process_charged x seq pid) as (l1 & E1 & C1). pose proof (process_single_same x seq pid) as S. rewrite (process_part _ _ _ Hx) in S, C1.
    destruct (process_single_m x seq pid) as [u [[m' cont] err']]. cbn [fst snd] in E1, S. injection S as -> -> ->. subst u.
    assert (He' : ends seq pid ((pre ++ [x]) ++ ms) (Message m) res err) by (rewrite <- app_assoc; exact He).
    destruct (IH _ He') as (l2 & k & E2 & C2 & L). rewrite E2. exists (l1 ++ l2), (1 + k). rewrite errors_app. split; [reflexivity|].
    split; [cbn [map]; by constructor|]. rewrite L, app_length. cbn. lia.
Qed.
Lemma receive_charges seq pid rs l pre u n res err : replies rs l ->
  receive_loop_m seq pid rs pre = (u, n, Ret (res, err)) ->
  exists before x after ls k, l = map Message before ++ x :: after /\ Forall (part seq pid) before /\ ends seq pid (pre ++ before) x res err /\
    charges seq pid (map Message before ++ [x]) ls k /\ u = errors ls /\ n = length pre + k /\ (forall m, x = Message m -> n = length res).
Proof.
  intros H. revert pre u n. induction H as [|ms rs l Hr IH|e rs]; intros pre u n E.
  - discriminate E.
  - cbn [receive_loop_m] in E. destruct (split_batch seq pid ms) as [Hp|(a & m & r & -> & Ha & Hm)].
    + destruct (one_batch_m_parts seq pid ms pre Hp) as (l1 & E1 & C1). rewrite E1 in E.
      destruct (receive_loop_m seq pid rs (pre ++ ms)) as [[u' n'] o] eqn:E2. injection E as <- <- ->.
      destruct (IH _ _ _ E2) as (before & x & after & l2 & k & -> & Hb & He & C2 & -> & -> & Lr).
      exists (ms ++ before), x, after, (l1 ++ l2), (length ms + k). rewrite !map_app, <- !app_assoc. split; [reflexivity|].
      split; [apply Forall_app; split; assumption|]. split; [rewrite app_assoc; exact He|].
      split; [apply charges_app; assumption|]. split; [by rewrite errors_app|]. split; [rewrite app_length; lia|exact Lr].
    + destruct (Hm (pre ++ a)) as (res' & err' & He).
      destruct (one_batch_m_ends seq pid a m r pre res' err' Ha He) as (ls & k & E1 & C1 & L). rewrite E1 in E. injection E as <- <- <- <-.
      exists a, (Message m), (map Message r ++ l), ls, k. rewrite map_app, <- app_assoc. split; [reflexivity|]. split; [exact Ha|]. split; [exact He|].
      rewrite map_app in C1. auto 10.
  - cbn in E. injection E as <- <- <- <-. exists [], (ReceiveFails e), [], [], 0. split; [reflexivity|]. split; [constructor|]. split; [constructor|].
    split; [apply charges_one; constructor|]. split; [reflexivity|]. split; [lia|discriminate].
Qed.
Lemma af_label_name family : exists af, af_label family = str af /\ family_name family af.
Proof.
  unfold af_label, family_name, AF_INET, AF_INET6. destruct (N.eqb_spec family 2) as [->|N2]; [exists "ipv4"%string; auto|].
  destruct (N.eqb_spec family 10) as [->|N10]; [exists "ipv6"%string; auto 10|]. exists "unknown"%string. auto 10.
Qed.
Lemma family_name_unique f a b : family_name f a -> family_name f b -> a = b.
Proof. unfold family_name. intros [[? ?]|[[? ?]|(? & ? & ?)]] [[? ?]|[[? ?]|(? & ? & ?)]]; subst; try reflexivity; try discriminate; contradiction. Qed.
Lemma one_type_m_opened so seq family pid : (family < 256)%N -> opened so (dump_request seq family) pid ->
  one_type_m so seq family =
  (let '(u, n, o) := receive_loop_m seq pid (so_receive so) [] in
   (match o with Ret _ => u ++ [SyscallTime (af_label family); ConnectionCount (af_label family) n] | _ => u end, o)).
Proof.
  intros Hf (H1 & H2 & H3). unfold one_type_m. rewrite H1, (request_bytes _ _ Hf), H2, H3, make_req_value. cbn [q_header h_seq]. reflexivity.
Qed.

(** Whatever the socket does *)
Lemma one_batch_m_errors seq pid msgs : forall res, exists ls, fst (one_batch_m seq pid msgs res) = errors ls.
Proof.
  induction msgs as [|m msgs IH]; intros res; [by exists []|]. cbn [one_batch_m].
  destruct (process_charged m seq pid) as (l1 & E1 & _). destruct (process_single_m m seq pid) as [u [[m' cont] err]]. cbn [fst] in E1. subst u.
  destruct err; [by exists l1|]. destruct cont; [|by exists l1].
  destruct (IH (match m' with Some m' => res ++ [m'] | None => res end)) as (l2 & E2). destruct (one_batch_m seq pid msgs _). cbn [fst] in *. subst.
  exists (l1 ++ l2). by rewrite errors_app.
Qed.
Lemma receive_m_shape seq pid rs : forall pre u n o, receive_loop_m seq pid rs pre = (u, n, o) ->
  exists ls, u = errors ls /\ (forall res, o = Ret (res, None) -> n = length res).
Proof.
  induction rs as [|[ms|e| |] rs IH]; intros pre u n o E; cbn [receive_loop_m] in E.
  - injection E as <- <- <-. exists []. split; [reflexivity|discriminate].
  - destruct (one_batch_m_errors seq pid ms pre) as (l1 & E1). destruct (one_batch_m seq pid ms pre) as [u1 [r|[r err]]]; cbn [fst] in E1; subst u1.
    + destruct (receive_loop_m seq pid rs r) as [[u' n'] o'] eqn:E2. injection E as <- <- <-. destruct (IH _ _ _ _ E2) as (l2 & -> & L).
      exists (l1 ++ l2). by rewrite errors_app.
    + injection E as <- <- <-. exists l1. split; [reflexivity|]. by intros res [= -> _].
  - injection E as <- <- <-. exists []. split; [reflexivity|discriminate].
  - injection E as <- <- <-. exists []. split; [reflexivity|discriminate].
  - injection E as <- <- <-. exists []. split; [reflexivity|discriminate].
Qed.
Lemma one_type_m_shape so seq family u res err : one_type_m so seq family = (u, Ret (res, err)) ->
  exists es n, u = errors es ++ [SyscallTime (af_label family); ConnectionCount (af_label family) n] /\ (err = None -> n = length res).
Proof.
  unfold one_type_m. destruct (so_subscribe so); [intros [= <- <- <-]; exists [], 0; split; [reflexivity|discriminate]|].
  destruct (so_send so _); [intros [= <- <- <-]; exists [], 0; split; [reflexivity|discriminate]|].
  destruct (so_pid so) as [pid|e| |]; try discriminate; [|intros [= <- <- <-]; exists [], 0; split; [reflexivity|discriminate]].
  destruct (receive_loop_m _ pid (so_receive so) []) as [[u' n] o] eqn:E. intros [= <- ->].
  destruct (receive_m_shape _ _ _ _ _ _ _ E) as (ls & -> & L). exists ls, n. split; [reflexivity|]. intros ->. by apply L.
Qed.

(** ** Iterations *)
Lemma collect_iteration v n b : block_of v n b -> iteration b (fst (collect_m v n)) /\ exists k, collect v n = Ret (b, k).
Proof.
  intros (ms6 & e6 & ms4 & e4 & O6 & O4 & F6 & F4 & T6 & T4).
  pose proof (one_type_same (v_socket v n 10) (v_seq v n 10) 10) as S6. pose proof (one_type_same (v_socket v n 2) (v_seq v n 2) 2) as S4.
  rewrite O6 in S6. rewrite O4 in S4. split.
  - unfold collect_m, AF_INET6, AF_INET.
    destruct (one_type_m (v_socket v n 10) (v_seq v n 10) 10) as [u6 o6] eqn:E6. cbn [snd] in S6. subst o6.
    destruct (one_type_m (v_socket v n 2) (v_seq v n 2) 2) as [u4 o4] eqn:E4. cbn [snd] in S4. subst o4. cbn [fst].
    destruct (one_type_m_shape _ _ _ _ _ _ E6) as (es6 & n6 & -> & L6). destruct (one_type_m_shape _ _ _ _ _ _ E4) as (es4 & n4 & -> & L4).
    exists es6, n6, es4, n4. split; [by rewrite <- app_assoc|].
    split; intros Hne.
    + destruct e6 as [e|]; [inversion F6; congruence|]. rewrite (L6 eq_refl). inversion F6 as [ms E1 E2 E3|]. by rewrite map_length.
    + destruct e4 as [e|]; [inversion F4; congruence|]. rewrite (L4 eq_refl). inversion F4 as [ms E1 E2 E3|]. by rewrite map_length.
  - unfold collect, AF_INET6, AF_INET. rewrite O6, O4. cbn [bind]. rewrite <- T6, <- T4.
    assert (X6 : match e6 with Some _ => [] | None => map Some ms6 end = V6Messages b) by (by inversion F6).
    assert (X4 : match e4 with Some _ => [] | None => map Some ms4 end = V4Messages b) by (by inversion F4).
    rewrite X6, X4. eexists. by destruct b.
Qed.
Lemma run_metrics_blocks v reps : forall bs k, (forall i b, bs !! i = Some b -> due v reps (k + i) /\ block_of v (k + i) b) ->
  exists us, Forall2 iteration bs us /\ run_metrics v reps (length bs) k = concat (map (fun u => u ++ [Polling]) us).
Proof.
  induction bs as [|b bs IH]; intros k H; [exists []; split; [constructor|reflexivity]|].
  destruct (H 0 b eq_refl) as [(D1 & D2) B]. rewrite Nat.add_0_r in D1, D2, B.
  destruct (IH (S k)) as (us & F & E). { intros i b' Hi. specialize (H (S i) b' Hi). by rewrite Nat.add_succ_r in H. }
  destruct (collect_iteration v k b B) as (It & n & C). pose proof (collect_same v k) as Sm. rewrite C in Sm.
  exists (fst (collect_m v k) :: us). split; [by constructor|]. cbn [length run_metrics map concat].
  rewrite D2. replace ((reps =? 0)%Z || (Z.of_nat k <? reps)%Z) with true by (symmetry; apply orb_true_iff; destruct D1; [left; by apply Z.eqb_eq|right; by apply Z.ltb_lt]).
  cbn [andb negb]. destruct (collect_m v k) as [u o]. cbn [fst snd] in *. rewrite Sm, E, <- app_assoc. reflexivity.
Qed.

(** ** Decode *)
Lemma attr_tallied t raw : tallied t raw (attr_metrics t raw).
Proof.
  assert (M : forall size name, struct_size t = Some size -> struct_name t = Some name -> undecoded t = false ->
            tallied t raw (maybe_copy_m raw size (str name))).
  { intros size name E1 E2 E3. unfold maybe_copy_m. destruct (Nat.ltb_spec (length raw) size) as [L|L].
    - apply ta_nothing; [by left|]. intros n En. rewrite E1 in En. injection En as <-. lia.
    - destruct (Nat.ltb_spec size (length raw)) as [L2|L2]; [by eapply ta_large|].
      apply ta_nothing; [by left|]. intros n En. rewrite E1 in En. injection En as <-. lia. }
  do 19 (destruct t as [|t]; [first
    [ apply M; reflexivity
    | apply ta_nothing; [by (left + right)|intros n En; discriminate En]
    | apply ta_skipped; [reflexivity|discriminate] ]|]).
  apply (ta_skipped (19 + t)); [reflexivity|lia].
Qed.
Lemma decode_attrs_tally attrs : forall t r s us, decode_attrs_m t attrs r = (us, Ret s) -> tally t attrs us.
Proof.
  induction attrs as [|[g|] attrs IH]; intros t r s us H; cbn [decode_attrs_m] in H.
  - injection H as <- <-. constructor.
  - destruct (decode_attr t (vis g) r) as [[r1 ok]|e| |]; try discriminate H.
    destruct (decode_attrs_m (S t) attrs _) as [u' x] eqn:E. injection H as <- ->.
    constructor; [apply attr_tallied|by eapply IH].
  - constructor. by eapply IH.
Qed.
