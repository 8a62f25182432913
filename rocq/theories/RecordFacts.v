(** Proofs about MakeArchivalRecord and the exclusion tests. *)
From Coq Require Import Strings.String List NArith ZArith Bool Arith Lia ZifyN ZifyNat ZifyBool.
From Verif Require Import GoBase GoBaseFacts Layout Tcp NetIP Inetdiag Netlink SpecNetlink NetlinkFacts AddrFacts.
Import ListNotations.
Local Open Scope list_scope.
Local Open Scope nat_scope.

Lemma idm_size_72 : idm_size = 72.
Proof. reflexivity. Qed.

(** The header fields are where the kernel puts them. *)
Lemma load_idm_fields raw :
  idiag_family (load_idm raw) = hdr_family raw /\ idiag_state (load_idm raw) = hdr_state raw /\
  idiag_timer (load_idm raw) = le (at_ 2 1 raw) /\ idiag_retrans (load_idm raw) = le (at_ 3 1 raw) /\
  sport (idiag_id (load_idm raw)) = hdr_sport raw /\ dport (idiag_id (load_idm raw)) = hdr_dport raw /\
  b_src (idiag_id (load_idm raw)) = hdr_src raw /\ b_dst (idiag_id (load_idm raw)) = hdr_dst raw /\
  interface (idiag_id (load_idm raw)) = hdr_if raw /\ cookie (idiag_id (load_idm raw)) = hdr_cookie raw /\
  idiag_expires (load_idm raw) = hdr_expires raw /\ idiag_rqueue (load_idm raw) = hdr_rqueue raw /\
  idiag_wqueue (load_idm raw) = hdr_wqueue raw /\ idiag_uid (load_idm raw) = hdr_uid raw /\
  idiag_inode (load_idm raw) = hdr_inode raw.
Proof. repeat split. Qed.

Lemma parse_idm_ok (raw : bytes) : 72 <= length raw -> parse_idm (Some raw) = Ret (load_idm raw).
Proof.
  intros. unfold parse_idm. cbn [raw_bytes]. rewrite idm_size_72.
  replace (length raw <? 72) with false by lia. reflexivity.
Qed.
Lemma parse_idm_short raw : length (raw_bytes raw) < 72 -> parse_idm raw = Fail ErrParseFailed.
Proof. intros. unfold parse_idm. rewrite idm_size_72. replace (length (raw_bytes raw) <? 72) with true by lia. reflexivity. Qed.
Lemma parse_idm_ret raw m : parse_idm raw = Ret m -> exists b, raw = Some b /\ 72 <= length b /\ m = load_idm b.
Proof.
  unfold parse_idm. rewrite idm_size_72. destruct (length (raw_bytes raw) <? 72) eqn:E; [discriminate|].
  intros K. injection K as <-. destruct raw as [b|]; cbn [raw_bytes] in *; [|cbn in E; lia].
  exists b. repeat split; lia.
Qed.
Lemma parse_idm_cases raw :
  (exists b, raw = Some b /\ 72 <= length b /\ parse_idm raw = Ret (load_idm b))
  \/ (length (raw_bytes raw) < 72 /\ parse_idm raw = Fail ErrParseFailed).
Proof.
  destruct (le_lt_dec 72 (length (raw_bytes raw))).
  - left. destruct raw as [b|]; cbn [raw_bytes length] in *; [|lia]. exists b. rewrite parse_idm_ok by lia. auto.
  - right. rewrite parse_idm_short by lia. auto.
Qed.

Lemma at_firstn o n k (l : bytes) : o + n <= k -> at_ o n (firstn k l) = at_ o n l.
Proof.
  intros. unfold at_. replace k with (o + (k - o)) by lia. rewrite firstn_skipn_comm_sub, firstn_firstn.
  f_equal. lia.
Qed.

(** ** Exclusion *)
Definition ports_of (ex : exclude_config) (p : N) : Prop := exists m, ex_srcports ex = Some m /\ m p = true.
Definition dsts_of (ex : exclude_config) (d : bytes) : Prop := exists m, ex_dstips ex = Some m /\ m d = true.
Definition excludes (ex : exclude_config) (raw : bytes) : Prop :=
  should_exclude (ex_local ex = true) (ports_of ex) (dsts_of ex) raw.

Lemma map_of_iff {K} (m : option (K -> bool)) k : map_of m k = true <-> exists f, m = Some f /\ f k = true.
Proof.
  destruct m as [f|]; cbn; split; intros H.
  - eauto. - destruct H as (g & E & H). congruence. - discriminate. - destruct H as (g & E & H). discriminate.
Qed.

Lemma excluded_iff ex raw : 72 <= length raw -> (excluded ex (load_idm raw) = true <-> excludes ex raw).
Proof.
  intros H. unfold excluded, excludes, should_exclude.
  pose proof (load_idm_fields raw) as F. destruct F as (_&_&_&_&Fs&_&Fsrc&Fdst&_).
  rewrite !orb_true_iff, andb_true_iff, orb_true_iff, Fs, Fdst.
  rewrite !map_of_iff. unfold src_ip, dst_ip. rewrite Fsrc, Fdst.
  rewrite !is_local_spec by (apply sub_length; lia).
  unfold ports_of, dsts_of. tauto.
Qed.

(** ** Attribute slots *)
Lemma set_nth_length {A} i (v : A) l : length (set_nth i v l) = length l.
Proof. revert i. induction l; intros [|i]; cbn; auto. Qed.
Lemma nth_set_nth {A} i j (v d : A) l : i < length l -> nth j (set_nth i v l) d = if Nat.eqb j i then v else nth j l d.
Proof.
  revert i j. induction l as [|x l IH]; cbn [length]; intros [|i] [|j] H; cbn [set_nth nth Nat.eqb]; try lia; auto.
  apply IH. lia.
Qed.

(** value of the last attribute of type t, as the model stores it *)
Definition last_val (t : N) (attrs : list rtattr) : option gslice :=
  fold_left (fun o a => if N.eqb (rta_type a) t then Some (rta_value a) else o) attrs None.

Lemma fill_fold mx attrs : forall slots, length slots = N.to_nat mx + 1 ->
  let r := fold_left (fun slots a => if N.ltb mx (rta_type a) then slots
                            else set_nth (N.to_nat (rta_type a)) (Some (rta_value a)) slots) attrs slots in
  length r = N.to_nat mx + 1 /\
  forall t, (t <= mx)%N -> nth (N.to_nat t) r None =
    fold_left (fun o a => if N.eqb (rta_type a) t then Some (rta_value a) else o) attrs (nth (N.to_nat t) slots None).
Proof.
  induction attrs as [|a attrs IH]; cbn [fold_left]; intros slots Hs.
  - auto.
  - destruct (mx <? rta_type a)%N eqn:E.
    + destruct (IH slots Hs) as [H1 H2]. split; [exact H1|]. intros t Ht. rewrite H2 by exact Ht.
      replace (rta_type a =? t)%N with false by lia. reflexivity.
    + specialize (IH (set_nth (N.to_nat (rta_type a)) (Some (rta_value a)) slots)
        ltac:(rewrite set_nth_length; exact Hs)). destruct IH as [H1 H2]. split; [exact H1|].
      intros t Ht. rewrite H2 by exact Ht. f_equal. rewrite nth_set_nth by lia.
      destruct (rta_type a =? t)%N eqn:E2.
      * replace (N.to_nat t =? N.to_nat (rta_type a)) with true by lia. reflexivity.
      * replace (N.to_nat t =? N.to_nat (rta_type a)) with false by lia. reflexivity.
Qed.

Lemma fill_slots_spec mx attrs :
  length (fill_slots mx attrs) = N.to_nat mx + 1 /\
  forall t, (t <= mx)%N -> nth (N.to_nat t) (fill_slots mx attrs) None = last_val t attrs.
Proof.
  unfold fill_slots, last_val.
  destruct (fill_fold mx attrs (repeat None (N.to_nat mx + 1)) (repeat_length _ _)) as [H1 H2].
  split; [exact H1|]. intros t Ht. rewrite H2 by exact Ht. f_equal. apply nth_repeat.
Qed.

Lemma last_val_cons t a attrs : last_val t (a :: attrs) =
  match last_val t attrs with Some v => Some v | None => if N.eqb (rta_type a) t then Some (rta_value a) else None end.
Proof.
  unfold last_val. cbn [fold_left].
  set (g := fun o a => if N.eqb (rta_type a) t then Some (rta_value a) else o).
  assert (forall l o, fold_left g l o = match fold_left g l None with Some v => Some v | None => o end) as K.
  { induction l as [|x l IH]; intros o; cbn [fold_left]; [reflexivity|].
    rewrite (IH (g o x)), (IH (g None x)). destruct (fold_left g l None); [reflexivity|].
    unfold g. destruct (rta_type x =? t)%N; reflexivity. }
  apply K.
Qed.

Lemma last_val_none t attrs : last_val t attrs = None <-> forall w, ~ In (t, w) (map ty_val attrs).
Proof.
  induction attrs as [|a attrs IH].
  - cbn. split; auto.
  - rewrite last_val_cons. cbn [map In]. destruct (last_val t attrs) as [s|] eqn:E.
    + split; [discriminate|]. intros H. exfalso.
      assert (Some s = None) as K; [|discriminate K]. apply IH. intros w Hw. apply (H w). auto.
    + destruct (rta_type a =? t)%N eqn:E2.
      * apply N.eqb_eq in E2. split; [discriminate|]. intros H. exfalso.
        apply (H (vis (rta_value a))). left. unfold ty_val. congruence.
      * apply N.eqb_neq in E2. split; auto. intros _ w [K|K].
        -- unfold ty_val in K. congruence.
        -- destruct IH as [IH _]. exact (IH eq_refl w K).
Qed.

Lemma last_val_iff t attrs v :
  (exists s, last_val t attrs = Some s /\ vis s = v) <-> last_of t (map ty_val attrs) v.
Proof.
  revert v. induction attrs as [|a attrs IH]; intros v.
  - cbn. split; [intros (s & H & _); discriminate|inversion 1].
  - rewrite last_val_cons. cbn [map]. split.
    + intros (s & Hs & Hv). destruct (last_val t attrs) as [w|] eqn:E.
      * injection Hs as ->. apply last_later. apply IH. eauto.
      * destruct (rta_type a =? t)%N eqn:E2; [|discriminate]. apply N.eqb_eq in E2.
        injection Hs as <-. unfold ty_val at 1. rewrite E2, Hv. apply last_here. apply last_val_none, E.
    + intros H. inversion H as [v' l Hno [E1 E2 E3]|x l v' Hl E1 E2]; subst.
      * rewrite (proj2 (last_val_none _ _) Hno), N.eqb_refl. eauto.
      * apply IH in Hl. destruct Hl as (s & -> & E). eauto.
Qed.

Lemma max_fold attrs : forall m,
  let r := fold_left (fun m a => if N.ltb m (rta_type a) then rta_type a else m) attrs m in
  (m <= r)%N /\ (forall t v, In (t, v) (map ty_val attrs) -> (t <= r)%N) /\
  (r = m \/ exists v, In (r, v) (map ty_val attrs)).
Proof.
  induction attrs as [|a attrs IH]; intros m; cbn [fold_left map].
  - repeat split; [lia|intros t v []|auto].
  - cbn zeta in *. specialize (IH (if (m <? rta_type a)%N then rta_type a else m)).
    destruct IH as (H1 & H2 & H3). split; [destruct (m <? rta_type a)%N eqn:E; lia|]. split.
    + intros t v [K|K]; [unfold ty_val in K; injection K as <- <-|eauto].
      destruct (m <? rta_type a)%N eqn:E; lia.
    + destruct (m <? rta_type a)%N eqn:E.
      * destruct H3 as [H3|[v H3]]; [|right; exists v; cbn; auto].
        right. exists (vis (rta_value a)). left. unfold ty_val. congruence.
      * destruct H3 as [H3|[v H3]]; [left; exact H3|right; exists v; cbn; auto].
Qed.
Lemma max_attr_type_spec attrs : largest_type (map ty_val attrs) (max_attr_type attrs).
Proof. destruct (max_fold attrs 0%N) as (H1 & H2 & H3). split; [exact H2|exact H3]. Qed.
Lemma cap_attr_type_min m : cap_attr_type m = N.min 38 m.
Proof.
  unfold cap_attr_type. change (2 * N.of_nat INET_DIAG_MAX)%N with 38%N.
  destruct (38 <? m)%N eqn:E; lia.
Qed.

(** ** MakeArchivalRecord, case by case *)
Lemma make_unfold msg ex :
  make_archival_record msg ex =
  if negb (N.eqb (h_type (m_header msg)) 20) then Fail ErrNotType20
  else if length (vis (m_data msg)) <? 72 then Fail ErrParseFailed
  else if match ex with None => false | Some e => excluded e (load_idm (firstn 72 (vis (m_data msg)))) end
  then Ret None
  else bind (parse_route_attr (mkslice (skipn 72 (vis (m_data msg))) (spare (m_data msg)))) (fun attrs =>
    Ret (Some (mkar zero_time (Some (firstn 72 (vis (m_data msg)))) (fill_slots (cap_attr_type (max_attr_type attrs)) attrs) None))).
Proof.
  unfold make_archival_record, split_inet_diag_msg. rewrite idm_size_72.
  destruct (negb (h_type (m_header msg) =? 20)%N); [reflexivity|].
  destruct (length (vis (m_data msg)) <? 72) eqn:E; [reflexivity|].
  destruct ex as [e|]; [|reflexivity].
  rewrite parse_idm_ok by (rewrite firstn_length; lia). reflexivity.
Qed.

Definition not_excluded (ex : option exclude_config) (raw : bytes) : Prop :=
  match ex with None => True | Some e => ~ excludes e raw end.

Lemma excl_bool ex raw : 72 <= length raw ->
  match ex with None => false | Some e => excluded e (load_idm raw) end = false <-> not_excluded ex raw.
Proof.
  intros H. destruct ex as [e|]; cbn; [|tauto]. rewrite <- (excluded_iff e raw H).
  destruct (excluded e (load_idm raw)); split; congruence.
Qed.

Definition data_of (msg : nlmsg) : bytes := vis (m_data msg).
Definition raw_of (msg : nlmsg) : bytes := firstn 72 (data_of msg).
Definition area_of (msg : nlmsg) : bytes := skipn 72 (data_of msg).

Ltac mk_cases msg ex :=
  rewrite (make_unfold msg ex);
  destruct (N.eqb_spec (h_type (m_header msg)) 20) as [Ht|Ht]; cbn [negb];
  [destruct (Nat.ltb_spec (length (vis (m_data msg))) 72) as [Hl|Hl];
   [|pose proof (excl_bool ex (firstn 72 (vis (m_data msg))) ltac:(rewrite firstn_length; lia)) as Hex;
     destruct (match ex with None => false | Some e => excluded e (load_idm (firstn 72 (vis (m_data msg)))) end) eqn:Ex;
     [|destruct (parse_route_attr (mkslice (skipn 72 (vis (m_data msg))) (spare (m_data msg)))) as [attrs|e0| |] eqn:Ep;
       cbn [bind]]]|].

Lemma make_panic_iff msg ex :
  make_archival_record msg ex = Panic <->
  h_type (m_header msg) = 20%N /\ 72 <= length (data_of msg) /\ not_excluded ex (raw_of msg) /\ wire_unpadded (area_of msg).
Proof.
  unfold data_of, raw_of, area_of. mk_cases msg ex; unfold data_of in *.
  - split; [discriminate|lia].
  - split; [discriminate|]. intros (_ & _ & K & _). apply Hex in K. discriminate.
  - split; [discriminate|]. intros (_ & _ & _ & K). apply (parse_route_attr_panic_iff _ (spare (m_data msg))) in K. congruence.
  - split; [discriminate|]. intros (_ & _ & _ & K). apply (parse_route_attr_panic_iff _ (spare (m_data msg))) in K. congruence.
  - split; [intros _|reflexivity]. repeat split; [exact Ht|lia|apply Hex; reflexivity|].
    apply (parse_route_attr_panic_iff _ (spare (m_data msg))). exact Ep.
  - exfalso. destruct (parse_route_attr_cases (skipn 72 (vis (m_data msg))) (spare (m_data msg))) as [[? K]|[K|K]]; congruence.
  - split; [discriminate|]. intros (K & _). congruence.
Qed.

Lemma make_no_diverge msg ex : make_archival_record msg ex <> Diverge.
Proof.
  mk_cases msg ex; try discriminate.
  destruct (parse_route_attr_cases (skipn 72 (vis (m_data msg))) (spare (m_data msg))) as [[? K]|[K|K]]; congruence.
Qed.

Lemma make_ret_some msg ex r :
  make_archival_record msg ex = Ret (Some r) ->
  h_type (m_header msg) = 20%N /\ 72 <= length (data_of msg) /\ not_excluded ex (raw_of msg) /\
  exists l m, wire_area l (area_of msg) /\ largest_type l m /\
    ar_time r = zero_time /\ ar_meta r = None /\ ar_raw r = Some (raw_of msg) /\
    length (ar_attrs r) = S (N.to_nat (N.min 38 m)) /\
    forall t v, (t <= 38)%N ->
      ((exists s, nth (N.to_nat t) (ar_attrs r) None = Some s /\ vis s = v) <-> last_of t l v).
Proof.
  unfold data_of, raw_of, area_of. mk_cases msg ex; try discriminate. unfold data_of in *.
  intros K. injection K as <-. split; [exact Ht|]. split; [lia|]. split; [apply Hex; reflexivity|].
  exists (map ty_val attrs), (max_attr_type attrs). 
  split; [apply (parse_route_attr_ret_iff _ (spare (m_data msg))); eauto|].
  split; [apply max_attr_type_spec|]. cbn [ar_time ar_meta ar_raw ar_attrs].
  repeat (split; [reflexivity|]). rewrite cap_attr_type_min.
  destruct (fill_slots_spec (N.min 38 (max_attr_type attrs)) attrs) as [H1 H2].
  split; [lia|]. intros t v Htt.
  destruct (N.le_gt_cases t (max_attr_type attrs)) as [H|H].
  - rewrite H2 by lia. apply last_val_iff.
  - rewrite nth_overflow by lia. split; [intros (s & Q & _); discriminate|]. intros Q.
    assert (last_val t attrs = None).
    { apply last_val_none. intros w Hw. destruct (max_attr_type_spec attrs) as [M _]. specialize (M _ _ Hw). lia. }
    apply last_val_iff in Q. destruct Q as (s & Q & _). congruence.
Qed.

Lemma make_accepts msg ex l :
  h_type (m_header msg) = 20%N -> 72 <= length (data_of msg) -> not_excluded ex (raw_of msg) ->
  wire_area l (area_of msg) -> exists r, make_archival_record msg ex = Ret (Some r).
Proof.
  unfold data_of, raw_of, area_of. intros A1 A2 A3 A4.
  destruct (parse_area l _ (spare (m_data msg)) A4) as (at' & E & _).
  mk_cases msg ex; unfold data_of in *; try congruence; try lia.
  - apply Hex in A3. discriminate.
  - eauto.
Qed.

Lemma make_ret_none_iff msg ex :
  make_archival_record msg ex = Ret None <->
  h_type (m_header msg) = 20%N /\ 72 <= length (data_of msg) /\ exists e, ex = Some e /\ excludes e (raw_of msg).
Proof.
  unfold data_of, raw_of. mk_cases msg ex; unfold data_of in *.
  - split; [discriminate|lia].
  - split; [intros _|reflexivity]. repeat split; [exact Ht|lia|]. destruct ex as [e|]; [|discriminate].
    exists e. split; [reflexivity|]. apply excluded_iff in Ex; [exact Ex|rewrite firstn_length; lia].
  - split; [discriminate|]. intros (_ & _ & e & -> & K). apply excluded_iff in K; [congruence|rewrite firstn_length; lia].
  - split; [discriminate|]. intros (_ & _ & e' & -> & K). apply excluded_iff in K; [congruence|rewrite firstn_length; lia].
  - split; [discriminate|]. intros (_ & _ & e' & -> & K). apply excluded_iff in K; [congruence|rewrite firstn_length; lia].
  - split; [discriminate|]. intros (_ & _ & e' & -> & K). apply excluded_iff in K; [congruence|rewrite firstn_length; lia].
  - split; [discriminate|]. intros (K & _). congruence.
Qed.

Lemma make_fail_iff msg ex e :
  make_archival_record msg ex = Fail e <->
  (e = ErrNotType20 /\ h_type (m_header msg) <> 20%N)
  \/ (e = ErrParseFailed /\ h_type (m_header msg) = 20%N /\ length (data_of msg) < 72)
  \/ (e = EINVAL /\ h_type (m_header msg) = 20%N /\ 72 <= length (data_of msg) /\ not_excluded ex (raw_of msg)
      /\ wire_bad_length (area_of msg)).
Proof.
  unfold data_of, raw_of, area_of. mk_cases msg ex; unfold data_of in *.
  - split; [intros K; injection K as <-; auto|]. intros [[-> K]|[[-> K]|[-> K]]]; [tauto|reflexivity|lia].
  - split; [discriminate|]. intros [[-> K]|[[-> K]|(-> & _ & _ & K & _)]]; [tauto|lia|].
    apply Hex in K. discriminate.
  - split; [discriminate|]. intros [[-> K]|[[-> K]|(-> & _ & _ & _ & K)]]; [tauto|lia|].
    apply (parse_route_attr_einval_iff _ (spare (m_data msg))) in K. congruence.
  - assert (e0 = EINVAL) as ->.
    { destruct (parse_route_attr_cases (skipn 72 (vis (m_data msg))) (spare (m_data msg))) as [[? K]|[K|K]]; congruence. }
    split.
    + intros K. injection K as <-. right. right. repeat split; [exact Ht|lia|apply Hex; reflexivity|].
      apply (parse_route_attr_einval_iff _ (spare (m_data msg))). exact Ep.
    + intros [[-> K]|[[-> K]|(-> & _ & _ & _ & K)]]; [tauto|lia|reflexivity].
  - split; [discriminate|]. intros [[-> K]|[[-> K]|(-> & _ & _ & _ & K)]]; [tauto|lia|].
    apply (parse_route_attr_einval_iff _ (spare (m_data msg))) in K. congruence.
  - split; [discriminate|]. intros [[-> K]|[[-> K]|(-> & _ & _ & _ & K)]]; [tauto|lia|].
    apply (parse_route_attr_einval_iff _ (spare (m_data msg))) in K. congruence.
  - split; [intros K; injection K as <-; auto|]. intros [[-> K]|[[-> K]|[-> K]]]; [reflexivity|tauto|tauto].
Qed.

(** ** Locality at the API *)
Definition only_local : exclude_config := mkex true None None.

Lemma make_local_iff msg : h_type (m_header msg) = 20%N -> 72 <= length (data_of msg) ->
  (make_archival_record msg (Some only_local) = Ret None <->
   sock_local (hdr_src (data_of msg)) \/ sock_local (hdr_dst (data_of msg))).
Proof.
  intros H1 H2. rewrite make_ret_none_iff. unfold raw_of.
  assert (E : forall e, excludes e (firstn 72 (data_of msg)) <-> excludes e (data_of msg)).
  { intros e. unfold excludes, should_exclude, hdr_sport, hdr_src, hdr_dst. rewrite !at_firstn by lia. reflexivity. }
  split.
  - intros (_ & _ & e & K & Hx). injection K as <-. apply E in Hx.
    destruct Hx as [[m [Q _]]|[[_ Hx]|[m [Q _]]]]; [discriminate|exact Hx|discriminate].
  - intros K. repeat split; auto. exists only_local. split; [reflexivity|]. apply E. right. left. auto.
Qed.

Lemma make_local_v4 msg : h_type (m_header msg) = 20%N -> 72 <= length (data_of msg) ->
  tail_zero (hdr_src (data_of msg)) -> tail_zero (hdr_dst (data_of msg)) ->
  (make_archival_record msg (Some only_local) = Ret None <->
   (let s := hdr_src (data_of msg) in v4_local (nthb 0 s) (nthb 1 s) (nthb 2 s) (nthb 3 s)) \/
   (let d := hdr_dst (data_of msg) in v4_local (nthb 0 d) (nthb 1 d) (nthb 2 d) (nthb 3 d))).
Proof. intros H1 H2 H3 H4. rewrite make_local_iff by assumption. unfold sock_local. cbn zeta. tauto. Qed.

Lemma make_local_v6 msg : h_type (m_header msg) = 20%N -> 72 <= length (data_of msg) ->
  ~ tail_zero (hdr_src (data_of msg)) -> ~ tail_zero (hdr_dst (data_of msg)) ->
  (make_archival_record msg (Some only_local) = Ret None <->
   v6_local (hdr_src (data_of msg)) \/ v6_local (hdr_dst (data_of msg))).
Proof. intros H1 H2 H3 H4. rewrite make_local_iff by assumption. unfold sock_local. tauto. Qed.

Lemma make_local_each msg : h_type (m_header msg) = 20%N -> 72 <= length (data_of msg) ->
  let local x := (tail_zero x -> v4_local (nthb 0 x) (nthb 1 x) (nthb 2 x) (nthb 3 x)) /\ (~ tail_zero x -> v6_local x) in
  (make_archival_record msg (Some only_local) = Ret None <->
   local (hdr_src (data_of msg)) \/ local (hdr_dst (data_of msg))).
Proof.
  intros H1 H2 local. rewrite make_local_iff by assumption.
  assert (D : forall x, sock_local x <-> local x).
  { intros x. unfold sock_local, local. rewrite !tail_zero_iff. generalize (v6_local x), (v4_local (nthb 0 x) (nthb 1 x) (nthb 2 x) (nthb 3 x)). intros P Q.
    assert (forall Z : Prop, Z \/ ~ Z -> (Z /\ Q \/ ~ Z /\ P <-> (Z -> Q) /\ (~ Z -> P))) as T by (intros; tauto).
    apply T. lia. }
  rewrite !D. reflexivity.
Qed.
