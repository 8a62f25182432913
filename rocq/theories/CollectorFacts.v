(** Proofs about the collector. *)
From stdpp Require Import base list.
From Coq Require Import NArith ZArith Lia Bool.
From Verif Require Import GoBase GoBaseFacts Inetdiag Tcp Netlink Saver Collector SpecCollector.

(** ** One message *)
Lemma land_multi f : N.eqb (N.land f NLM_F_MULTI) 0 = negb (N.testbit f 1).
Proof.
  unfold NLM_F_MULTI. change 2%N with (2 ^ 1)%N.
  destruct (N.testbit f 1) eqn:E; cbn [negb].
  - apply N.eqb_neq. intros Hz. assert (X : N.testbit (N.land f (2 ^ 1)) 1 = true).
    { rewrite N.land_spec, E, N.pow2_bits_true. reflexivity. }
    rewrite Hz in X. discriminate X.
  - apply N.eqb_eq. apply N.bits_inj_0. intros n. rewrite N.land_spec.
    destruct (N.eq_dec n 1) as [-> | Hn]; [rewrite E; reflexivity|].
    rewrite N.pow2_bits_false by (intros Hx; apply Hn; symmetry; exact Hx). apply andb_false_r.
Qed.

Lemma bval_0 b : bval b = 0%N -> b = x00.
Proof. intros H. apply bval_inj. rewrite H. reflexivity. Qed.

Lemma le_zero a b c d : le [a; b; c; d] = 0%N <-> a = x00 /\ b = x00 /\ c = x00 /\ d = x00.
Proof.
  cbn [le]. split.
  - intros H. repeat split; apply bval_0; lia.
  - intros (-> & -> & -> & ->). reflexivity.
Qed.

Inductive verdict := Goes | Stops (r : list nlmsg -> list nlmsg) (e : option goerr).
Definition verdict_of (x : option nlmsg * bool * option goerr) : verdict :=
  match x with
  | (_, _, Some e) => Stops id (Some e)
  | (None, true, None) => Goes
  | (Some m, true, None) => Goes
  | (None, false, None) => Stops id None
  | (Some m, false, None) => Stops (fun l => l ++ [m]) None
  end.

Lemma data4 (l : bytes) : (length l <? 4)%nat = false -> exists a b c d r, l = a :: b :: c :: d :: r.
Proof.
  intros H. apply Nat.ltb_ge in H. destruct l as [|a [|b [|c [|d r]]]]; cbn in H; try lia.
  exists a, b, c, d, r. reflexivity.
Qed.

Lemma process_part seq pid m : part seq pid m -> process_single m seq pid = (Some m, true, None).
Proof.
  intros (H1 & H2 & H3 & H4 & H5). unfold process_single.
  rewrite H1, H2, !N.eqb_refl. cbn [negb]. unfold NLMSG_DONE, NLMSG_ERROR.
  rewrite (proj2 (N.eqb_neq _ _) H3). rewrite land_multi, H5. cbn [negb].
  destruct (N.eqb (h_type (m_header m)) 2) eqn:E; [|reflexivity].
  apply N.eqb_eq in E. destruct (H4 E) as (a & b & c & d & (r & Hr) & Hz). rewrite Hr.
  change (sub 0 4 (a :: b :: c :: d :: r)) with [a; b; c; d].
  destruct (N.eqb (le [a; b; c; d]) 0) eqn:E2; [|reflexivity].
  apply N.eqb_eq, le_zero in E2. contradiction.
Qed.

Lemma process_ends seq pid m before res err :
  ends seq pid before (Message m) res err ->
  exists m', process_single m seq pid = (m', false, err) /\
    (err = None -> res = match m' with Some x => before ++ [x] | None => before end) /\
    (err <> None -> res = before).
Proof.
  intros H. inversion H as [ | m' Hs | m' Hs Hp | m' Hs Hp Ht | m' Hs Hp Ht Hc | m' Hs Hp Ht Hl
    | m' a b c d Hs Hp Ht Hc Hz Hf | m' Hs Hp Ht2 Ht3 Hf ]; subst.
  - exists None. unfold process_single. rewrite (proj2 (N.eqb_neq _ _) Hs). split; [reflexivity|].
    split; [intros X; discriminate X | reflexivity].
  - exists None. unfold process_single. rewrite N.eqb_refl, (proj2 (N.eqb_neq _ _) Hp). split; [reflexivity|].
    split; [intros X; discriminate X | reflexivity].
  - exists None. unfold process_single. rewrite !N.eqb_refl, Ht. split; [reflexivity|].
    split; [reflexivity | intros X; contradiction].
  - exists None. destruct Hc as (r & Hr). unfold process_single. rewrite !N.eqb_refl, Ht, Hr. split; [reflexivity|].
    split; [reflexivity | intros X; contradiction].
  - exists None. unfold process_single. rewrite !N.eqb_refl, Ht, (proj2 (Nat.ltb_lt _ _) Hl). split; [reflexivity|].
    split; [intros X; discriminate X | reflexivity].
  - exists (Some m). destruct Hc as (r & Hr). unfold process_single.
    rewrite !N.eqb_refl, Ht, land_multi, Hf, Hr.
    change (sub 0 4 (a :: b :: c :: d :: r)) with [a; b; c; d].
    cbn [negb]. change (2 =? NLMSG_DONE)%N with false. change (2 =? NLMSG_ERROR)%N with true.
    cbn iota. cbn [length]. change (S (S (S (S (length r)))) <? 4)%nat with false. cbn iota.
    destruct (N.eqb (le [a; b; c; d]) 0) eqn:E2; [apply N.eqb_eq, le_zero in E2; contradiction|].
    split; [reflexivity|]. split; [reflexivity | intros X; contradiction].
  - exists (Some m). unfold process_single, NLMSG_DONE, NLMSG_ERROR.
    rewrite !N.eqb_refl, (proj2 (N.eqb_neq _ _) Ht2), (proj2 (N.eqb_neq _ _) Ht3), land_multi, Hf.
    split; [reflexivity|]. split; [reflexivity | intros X; contradiction].
Qed.

Lemma part_or_ends seq pid m : part seq pid m \/ forall before, exists res err, ends seq pid before (Message m) res err.
Proof.
  destruct (N.eq_dec (h_seq (m_header m)) seq) as [Hs|Hs]; [|right; intros before; eexists _, _; apply end_seq; exact Hs].
  destruct (N.eq_dec (h_pid (m_header m)) pid) as [Hp|Hp]; [|right; intros before; eexists _, _; apply end_pid; assumption].
  destruct (N.eq_dec (h_type (m_header m)) 3) as [Ht3|Ht3]; [right; intros before; eexists _, _; apply end_done; assumption|].
  destruct (N.eq_dec (h_type (m_header m)) 2) as [Ht2|Ht2].
  - destruct (length (vis (m_data m)) <? 4)%nat eqn:El.
    + right. intros before. eexists _, _. apply end_short; try assumption. apply Nat.ltb_lt. exact El.
    + destruct (data4 _ El) as (a & b & c & d & r & Hr).
      destruct (N.eq_dec (le [a; b; c; d]) 0) as [Hz|Hz].
      * right. intros before. eexists _, _. apply end_ack; try assumption.
        apply le_zero in Hz as (-> & -> & -> & ->). exists r. exact Hr.
      * assert (Hc : code m a b c d) by (exists r; exact Hr).
        assert (Hnz : ~ (a = x00 /\ b = x00 /\ c = x00 /\ d = x00)) by (intros X; apply Hz, le_zero; exact X).
        destruct (N.testbit (h_flags (m_header m)) 1) eqn:Ef.
        -- left. repeat split; try assumption. intros _. exists a, b, c, d. split; assumption.
        -- right. intros before. eexists _, _. eapply end_error; eassumption.
  - destruct (N.testbit (h_flags (m_header m)) 1) eqn:Ef.
    + left. repeat split; try assumption. intros X; contradiction.
    + right. intros before. eexists _, _. apply end_single; assumption.
Qed.

(** ** The receive loop *)
Lemma one_batch_parts seq pid ms res : Forall (part seq pid) ms -> one_batch seq pid ms res = inl (res ++ ms).
Proof.
  intros H. revert res. induction H as [|m ms Hm _ IH]; intros res; cbn [one_batch].
  - rewrite app_nil_r. reflexivity.
  - rewrite (process_part _ _ _ Hm). rewrite IH, <- app_assoc. reflexivity.
Qed.

Lemma one_batch_ends seq pid ms m rest pre res err :
  Forall (part seq pid) ms -> ends seq pid (pre ++ ms) (Message m) res err ->
  one_batch seq pid (ms ++ m :: rest) pre = inr (res, err).
Proof.
  intros H. revert pre. induction H as [|x ms Hx _ IH]; intros pre He; cbn [one_batch app].
  - rewrite app_nil_r in He. destruct (process_ends _ _ _ _ _ _ He) as (m' & -> & H1 & H2).
    destruct err as [e|]; [rewrite H2 by (intros X; discriminate X); reflexivity|].
    rewrite H1 by reflexivity. reflexivity.
  - rewrite (process_part _ _ _ Hx). apply IH. rewrite <- app_assoc. exact He.
Qed.

Lemma split_batch seq pid (ms : list nlmsg) :
  Forall (part seq pid) ms \/
  exists l m r, ms = l ++ m :: r /\ Forall (part seq pid) l /\ forall before, exists res err, ends seq pid before (Message m) res err.
Proof.
  induction ms as [|m ms IH]; [left; constructor|].
  destruct (part_or_ends seq pid m) as [Hm|Hm]; [|right; exists [], m, ms; repeat split; [constructor|exact Hm]].
  destruct IH as [H|(l & x & r & -> & Hl & Hx)]; [left; constructor; assumption|].
  right. exists (m :: l), x, r. repeat split; [constructor; assumption | exact Hx].
Qed.

Lemma receive_dump seq pid rs l pre :
  replies rs l ->
  (exists ms, l = map Message ms /\ Forall (part seq pid) ms /\ receive_loop seq pid rs pre = Diverge)
  \/ exists before x after res err, l = map Message before ++ x :: after /\ Forall (part seq pid) before
       /\ ends seq pid (pre ++ before) x res err /\ receive_loop seq pid rs pre = Ret (res, err).
Proof.
  intros H. revert pre. induction H as [|ms rs l Hr IH|e rs]; intros pre.
  - left. exists []. repeat split; constructor.
  - destruct (split_batch seq pid ms) as [Hp|(a & m & r & -> & Ha & Hm)].
    + destruct (IH (pre ++ ms)) as [(ms' & -> & Hp' & Hd)|(before & x & after & res & err & -> & Hb & He & Hd)].
      * left. exists (ms ++ ms'). rewrite map_app. repeat split; [apply Forall_app; split; assumption|].
        cbn [receive_loop]. rewrite (one_batch_parts _ _ _ _ Hp). exact Hd.
      * right. exists (ms ++ before), x, after, res, err. rewrite map_app, <- app_assoc. repeat split.
        -- apply Forall_app; split; assumption.
        -- rewrite app_assoc. exact He.
        -- cbn [receive_loop]. rewrite (one_batch_parts _ _ _ _ Hp). exact Hd.
    + destruct (Hm (pre ++ a)) as (res & err & He).
      right. exists a, (Message m), (map Message r ++ l), res, err.
      rewrite map_app, <- app_assoc. repeat split; try assumption.
      cbn [receive_loop]. rewrite (one_batch_ends _ _ _ _ _ _ _ _ Ha He). reflexivity.
  - right. exists [], (ReceiveFails e), [], [], (Some e). repeat split; constructor.
Qed.

(** ** The request *)
Lemma make_req_value seq family :
  make_req seq family = mkrequest (mkhdr 16 20 769 seq 0) [mkreq (family mod 256) 6 255 0 3895 (repeat x00 48)].
Proof.
  unfold make_req.
  assert (E : forall st, new_reqv2 family IPPROTO_TCP st = mkreq (family mod 256) 6 0 0 (st mod 4294967296) (repeat x00 48)).
  { reflexivity. }
  rewrite E. generalize (family mod 256)%N. intros f. vm_compute. reflexivity.
Qed.

Lemma request_bytes seq family : (family < 256)%N -> serialize_request (make_req seq family) = dump_request seq family.
Proof.
  intros Hf. rewrite make_req_value, (N.mod_small family) by exact Hf.
  unfold serialize_request, dump_request, serialize_reqv2.
  cbn [q_header q_data h_len h_type h_flags h_seq h_pid map rq_family rq_protocol rq_ext rq_pad rq_states rq_id].
  change (le_enc 1 family) with [byte_of family].
  generalize (le_enc 4 seq). generalize (byte_of family). intros f ss. reflexivity.
Qed.

Lemma serialize_injective r r' :
  length (rq_id r) = 48 -> length (rq_id r') = 48 ->
  (rq_family r < 256)%N -> (rq_protocol r < 256)%N -> (rq_ext r < 256)%N -> (rq_pad r < 256)%N -> (rq_states r < 4294967296)%N ->
  (rq_family r' < 256)%N -> (rq_protocol r' < 256)%N -> (rq_ext r' < 256)%N -> (rq_pad r' < 256)%N -> (rq_states r' < 4294967296)%N ->
  serialize_reqv2 r = serialize_reqv2 r' -> r = r'.
Proof.
  destruct r as [a b c d e i], r' as [a' b' c' d' e' i']. cbn [rq_family rq_protocol rq_ext rq_pad rq_states rq_id].
  intros L L' ? ? ? ? ? ? ? ? ? ? H. unfold serialize_reqv2 in H.
  cbn [rq_family rq_protocol rq_ext rq_pad rq_states rq_id] in H.
  assert (P : forall n x y (u w : bytes), le_enc n x ++ u = le_enc n y ++ w -> (x < 256 ^ N.of_nat n)%N -> (y < 256 ^ N.of_nat n)%N -> x = y /\ u = w).
  { intros n x y u w E Hx Hy. apply app_inj_1 in E; [|rewrite !le_enc_length; reflexivity].
    destruct E as (E & ->). split; [|reflexivity].
    rewrite <- (N.mod_small _ _ Hx), <- (N.mod_small _ _ Hy), <- !le_le_enc, E. reflexivity. }
  apply P in H as (-> & H); [|assumption..].
  apply P in H as (-> & H); [|assumption..].
  apply P in H as (-> & H); [|assumption..].
  apply P in H as (-> & H); [|assumption..].
  apply P in H as (-> & ->); [|assumption..].
  reflexivity.
Qed.

Lemma states_mask s : N.testbit 3895 s = true <-> (s <= 11)%N /\ s <> 3%N /\ s <> 6%N /\ s <> 7%N.
Proof.
  destruct (N.le_gt_cases s 11) as [Hs|Hs].
  - assert (s = 0 \/ s = 1 \/ s = 2 \/ s = 3 \/ s = 4 \/ s = 5 \/ s = 6 \/ s = 7 \/ s = 8 \/ s = 9 \/ s = 10 \/ s = 11)%N as H by lia.
    repeat (destruct H as [-> | H]; [vm_compute; intuition congruence|]). subst s. vm_compute; intuition congruence.
  - split; [|lia]. intros H. exfalso. rewrite N.bits_above_log2 in H; [discriminate H|].
    change (N.log2 3895) with 11%N. exact Hs.
Qed.

Lemma ext_mask i : N.testbit 255 i = true <-> (i < 8)%N.
Proof.
  change 255%N with (N.ones 8). destruct (N.lt_ge_cases i 8) as [H|H].
  - rewrite N.ones_spec_low by exact H. tauto.
  - rewrite N.ones_spec_high by exact H. split; [discriminate | lia].
Qed.

(** ** OneType *)
Lemma one_type_opened so seq family pid :
  (family < 256)%N -> opened so (dump_request seq family) pid ->
  one_type so seq family = receive_loop seq pid (so_receive so) [].
Proof.
  intros Hf (H1 & H2 & H3). unfold one_type. rewrite H1, (request_bytes _ _ Hf), H2, H3.
  rewrite make_req_value. reflexivity.
Qed.

Lemma ends_not_part seq pid m before res err : ends seq pid before (Message m) res err -> ~ part seq pid m.
Proof.
  intros H Hp. destruct (process_ends _ _ _ _ _ _ H) as (m' & E & _). rewrite (process_part _ _ _ Hp) in E. discriminate E.
Qed.

Lemma ends_det seq pid before x res err res' err' :
  ends seq pid before x res err -> ends seq pid before x res' err' -> res = res' /\ err = err'.
Proof.
  destruct x as [m|e].
  - intros H H'. destruct (process_ends _ _ _ _ _ _ H) as (m1 & E1 & H1 & H2).
    destruct (process_ends _ _ _ _ _ _ H') as (m2 & E2 & H3 & H4).
    rewrite E1 in E2. injection E2 as <- <-. split; [|reflexivity].
    destruct err; [rewrite H2, H4 by discriminate; reflexivity|]. rewrite H1, H3 by reflexivity. reflexivity.
  - intros H H'. inversion H; inversion H'; subst. split; reflexivity.
Qed.

Definition stops (seq pid : N) (x : reply) : Prop :=
  match x with Message m => ~ part seq pid m | ReceiveFails _ => True end.
Lemma ends_stops seq pid before x res err : ends seq pid before x res err -> stops seq pid x.
Proof. destruct x as [m|e]; [apply ends_not_part | intros _; exact I]. Qed.

Lemma split_unique seq pid before x after before' x' after' :
  map Message before ++ x :: after = map Message before' ++ x' :: after' ->
  Forall (part seq pid) before -> Forall (part seq pid) before' -> stops seq pid x -> stops seq pid x' ->
  before = before' /\ x = x'.
Proof.
  intros E Hb. revert before' E. induction Hb as [|m before Hm Hb IH]; intros before' E Hb' Hx Hx'.
  - destruct Hb' as [|m' before' Hm' _]; cbn in E; injection E as -> E; [split; reflexivity|]. contradiction.
  - destruct Hb' as [|m' before' Hm' Hb']; cbn in E; injection E as E1 E.
    + subst x'. contradiction.
    + subst m'. destruct (IH before' E Hb' Hx Hx') as (-> & ->). split; reflexivity.
Qed.

Lemma parts_unique seq pid ms before x after :
  map Message ms = map Message before ++ x :: after -> Forall (part seq pid) ms -> stops seq pid x -> False.
Proof.
  intros E H. revert before E. induction H as [|m ms Hm _ IH]; intros before E Hx.
  - destruct before; discriminate E.
  - destruct before as [|b before]; cbn in E; injection E as E1 E; [subst x; contradiction|].
    exact (IH before E Hx).
Qed.

Lemma one_type_result so seq family pid l res err :
  (family < 256)%N -> opened so (dump_request seq family) pid -> replies (so_receive so) l ->
  one_type so seq family = Ret (res, err) <-> dump seq pid l res err.
Proof.
  intros Hf Ho Hl. rewrite (one_type_opened _ _ _ _ Hf Ho).
  destruct (receive_dump seq pid _ l [] Hl) as [(ms & -> & Hp & ->)|(before & x & after & r & e & -> & Hb & He & ->)].
  - split; [intros X; discriminate X|]. intros [before x after E _ He]. exfalso.
    exact (parts_unique _ _ _ _ _ _ E Hp (ends_stops _ _ _ _ _ _ He)).
  - cbn [app] in He. split.
    + intros X. injection X as <- <-. exact (mkdump _ _ _ _ _ _ _ _ eq_refl Hb He).
    + intros [before' x' after' E Hb' He'].
      destruct (split_unique _ _ _ _ _ _ _ _ E Hb Hb' (ends_stops _ _ _ _ _ _ He) (ends_stops _ _ _ _ _ _ He')) as (<- & <-).
      destruct (ends_det _ _ _ _ _ _ _ _ He He') as (<- & <-). reflexivity.
Qed.

Lemma one_type_blocks so seq family pid l :
  (family < 256)%N -> opened so (dump_request seq family) pid -> replies (so_receive so) l ->
  one_type so seq family = Diverge <-> exists ms, l = map Message ms /\ Forall (part seq pid) ms.
Proof.
  intros Hf Ho Hl. rewrite (one_type_opened _ _ _ _ Hf Ho).
  destruct (receive_dump seq pid _ l [] Hl) as [(ms & -> & Hp & ->)|(before & x & after & r & e & -> & Hb & He & ->)].
  - split; [intros _; exists ms; split; [reflexivity|exact Hp] | reflexivity].
  - split; [intros X; discriminate X|]. intros (ms & E & Hp). exfalso.
    exact (parts_unique _ _ _ _ _ _ (eq_sym E) Hp (ends_stops _ _ _ _ _ _ He)).
Qed.

Lemma one_type_unopened so seq family e :
  (family < 256)%N ->
  so_subscribe so = Some e
  \/ so_subscribe so = None /\ so_send so (dump_request seq family) = Some e
  \/ so_subscribe so = None /\ so_send so (dump_request seq family) = None /\ so_pid so = Fail e ->
  one_type so seq family = Ret ([], Some e).
Proof.
  intros Hf H. unfold one_type. rewrite (request_bytes _ _ Hf).
  destruct H as [-> |[(-> & ->)|(-> & -> & ->)]]; reflexivity.
Qed.

(** ** Run *)
Lemma collect_block v n b k : collect v n = Ret (b, k) -> block_of v n b.
Proof.
  unfold collect, block_of. change AF_INET6 with 10%N. change AF_INET with 2%N.
  destruct (one_type (v_socket v n 10) (v_seq v n 10) 10) as [[ms6 e6]| | |]; cbn [bind]; try discriminate.
  destruct (one_type (v_socket v n 2) (v_seq v n 2) 2) as [[ms4 e4]| | |]; cbn [bind]; try discriminate.
  intros H. injection H as <- _. exists ms6, e6, ms4, e4.
  split; [reflexivity|]. split; [reflexivity|]. cbn [V6Messages V4Messages V6Time V4Time].
  split; [destruct e6; constructor|]. split; [destruct e4; constructor|]. split; reflexivity.
Qed.

Lemma block_collect v n b : block_of v n b -> exists k, collect v n = Ret (b, k).
Proof.
  intros (ms6 & e6 & ms4 & e4 & E6 & E4 & H6 & H4 & T6 & T4). unfold collect.
  change AF_INET6 with 10%N. change AF_INET with 2%N. rewrite E6. cbn [bind]. rewrite E4. cbn [bind].
  destruct b as [t4 t6 m4 m6]. cbn [V6Messages V4Messages V6Time V4Time] in *. subst t4 t6.
  eexists. f_equal. f_equal. inversion H6; inversion H4; subst; reflexivity.
Qed.

Lemma due_test v reps n :
  due v reps n <-> (((reps =? 0)%Z || (Z.of_nat n <? reps)%Z) && negb (v_cancelled v n)) = true.
Proof.
  unfold due. rewrite andb_true_iff, orb_true_iff, Z.eqb_eq, Z.ltb_lt, negb_true_iff. tauto.
Qed.

Lemma run_prefix v reps k : forall fuel n bs,
  length bs = k -> (forall i b, bs !! i = Some b -> due v reps (n + i) /\ block_of v (n + i) b) ->
  fst (run_go v reps (k + fuel) n) = concat (imap (fun i b => ESend b :: if (Z.of_nat (n + i) mod 6000 =? 0)%Z then [ELog 0 0] else []) bs)
       ++ fst (run_go v reps fuel (n + k))
  /\ snd (run_go v reps (k + fuel) n) = snd (run_go v reps fuel (n + k)).
Proof.
  induction k as [|k IH]; intros fuel n bs Hl H.
  - destruct bs; [|discriminate Hl]. rewrite Nat.add_0_r. split; reflexivity.
  - destruct bs as [|b bs]; [discriminate Hl|]. injection Hl as Hl.
    destruct (H 0 b eq_refl) as (Hd & Hb). rewrite Nat.add_0_r in Hd, Hb.
    cbn [Nat.add run_go]. rewrite (proj1 (due_test _ _ _) Hd).
    destruct (block_collect _ _ _ Hb) as (m & ->).
    specialize (IH fuel (S n) bs Hl). destruct IH as (IH1 & IH2).
    { intros i c Hc. destruct (H (S i) c Hc) as (A & B). rewrite Nat.add_succ_r in A, B. split; assumption. }
    destruct (run_go v reps (k + fuel) (S n)) as [es r]. cbn [fst snd] in *.
    rewrite Nat.add_succ_r. cbn [Nat.add] in IH1, IH2. split; [|exact IH2]. rewrite imap_cons. cbn [concat]. rewrite Nat.add_0_r.
    cbn [app]. f_equal. rewrite IH1, <- app_assoc. f_equal. f_equal. f_equal.
    apply imap_ext. intros i x _. cbn. rewrite Nat.add_succ_r. reflexivity.
Qed.

Lemma sent_events (f : nat -> bool) bs :
  sent (concat (imap (fun i b => ESend b :: if f i then [ELog 0 0] else []) bs)) = bs.
Proof.
  revert f. induction bs as [|b bs IH]; intros f; [reflexivity|].
  rewrite imap_cons. cbn [concat]. unfold sent in *. rewrite flat_map_app.
  etransitivity; [apply (f_equal2 app eq_refl (IH (f ∘ S)))|]. destruct (f 0); reflexivity.
Qed.
Lemma logged_events (f : nat -> bool) bs :
  logged (concat (imap (fun i b => ESend b :: if f i then [ELog 0 0] else []) bs))
  = map (fun _ => (0, 0)%Z) (List.filter f (List.seq 0 (length bs))).
Proof.
  revert f. induction bs as [|b bs IH]; intros f; [reflexivity|].
  rewrite imap_cons. cbn [concat length List.seq List.filter]. unfold logged in *. rewrite flat_map_app.
  etransitivity; [apply (f_equal2 app eq_refl (IH (f ∘ S)))|]. rewrite <- seq_shift.
  assert (G : forall l, List.filter f (map S l) = map S (List.filter (f ∘ S) l)).
  { induction l as [|x l IHl]; [reflexivity|]. cbn. rewrite IHl. destruct (f (S x)); reflexivity. }
  rewrite G. destruct (f 0); cbn; rewrite map_map; reflexivity.
Qed.
Lemma sent_app a b : sent (a ++ b) = sent a ++ sent b.
Proof. apply flat_map_app. Qed.
Lemma logged_app a b : logged (a ++ b) = logged a ++ logged b.
Proof. apply flat_map_app. Qed.

Definition tick (n : nat) : bool := (Z.of_nat n mod 6000 =? 0)%Z.

Lemma run_blocks v reps fuel bs :
  (forall i b, bs !! i = Some b -> due v reps i /\ block_of v i b) ->
  let r := run v reps (length bs + fuel) in
  let r' := run_go v reps fuel (length bs) in
  sent (fst r) = bs ++ sent (fst r') /\ snd r = snd r'
  /\ logged (fst r) = map (fun _ => (0, 0)%Z) (List.filter tick (List.seq 0 (length bs))) ++ logged (fst r').
Proof.
  intros H. cbn zeta. unfold run. destruct (run_prefix v reps (length bs) fuel 0 bs eq_refl H) as (E1 & E2).
  rewrite E1, E2. cbn [Nat.add]. rewrite sent_app, logged_app.
  rewrite (sent_events (fun i => (Z.of_nat i mod 6000 =? 0)%Z)), (logged_events (fun i => (Z.of_nat i mod 6000 =? 0)%Z)).
  repeat split.
Qed.

Lemma run_stop v reps fuel n : ~ due v reps n -> run_go v reps (S fuel) n = ([], Some (0, 0)%Z).
Proof.
  intros H. cbn [run_go]. destruct (_ && _) eqn:E; [|reflexivity].
  exfalso. apply H, due_test. exact E.
Qed.

(** Everything Run can have done. *)
Lemma run_shape v reps fuel : forall n,
  exists bs, (forall i b, bs !! i = Some b -> due v reps (n + i) /\ block_of v (n + i) b)
    /\ sent (fst (run_go v reps fuel n)) = bs
    /\ (snd (run_go v reps fuel n) = None \/ snd (run_go v reps fuel n) = Some (0, 0)%Z /\ ~ due v reps (n + length bs)).
Proof.
  induction fuel as [|fuel IH]; intros n.
  - exists []. split; [intros i b X; discriminate X|]. split; [reflexivity|]. left. reflexivity.
  - cbn [run_go]. destruct (_ && _) eqn:E.
    + destruct (collect v n) as [[b k]| | |] eqn:C.
      2-4: exists []; split; [intros i b X; discriminate X|]; split; [reflexivity|]; left; reflexivity.
      destruct (IH (S n)) as (bs & H1 & H2 & H3).
      destruct (run_go v reps fuel (S n)) as [es r]. cbn [fst snd] in *.
      exists (b :: bs). split; [|split].
      * intros [|i] c Hc; [injection Hc as <-; rewrite Nat.add_0_r; split; [apply due_test; exact E | exact (collect_block _ _ _ _ C)]|].
        rewrite Nat.add_succ_r. exact (H1 i c Hc).
      * change (ESend b :: ?a ++ es) with ([ESend b] ++ a ++ es).
        destruct (Z.of_nat n mod 6000 =? 0)%Z; cbn; f_equal; exact H2.
      * destruct H3 as [H3|(H3 & H4)]; [left; exact H3|]. right. split; [exact H3|].
        cbn [length]. rewrite Nat.add_succ_r. exact H4.
    + exists []. split; [intros i b X; discriminate X|]. split; [reflexivity|]. right. split; [reflexivity|].
      cbn [length]. rewrite Nat.add_0_r, due_test, E. discriminate.
Qed.
