(** Every action of the saver is an instance of one of a few elementary steps on
    its connection table; invariants of the files are proved over these. *)
From stdpp Require Import gmap relations.
From Coq Require Import NArith ZArith Lia.
From Verif Require Import GoBase GoBaseFacts GoTime Inetdiag Netlink SpecNetlink SpecCompare RecordFacts CompareFacts
  Cache SpecCache CacheFacts Saver.

(** The last clock reading recorded in a log. *)
Definition last_now (l : list action) : option Z :=
  last (omap (fun a => match a with ANow t => Some t | _ => None end) l).
Lemma last_now_app l1 l2 : last_now (l1 ++ l2) = match last_now l2 with Some t => Some t | None => last_now l1 end.
Proof.
  unfold last_now. rewrite omap_app. generalize (omap (fun a => match a with ANow t => Some t | _ => None end) l1). intros l.
  induction (omap _ l2) as [|x l' IH] using rev_ind; [by rewrite app_nil_r|].
  rewrite app_assoc, !last_snoc. done.
Qed.

(** Actions that concern no connection. *)
Definition neutral (a : action) : bool :=
  match a with
  | AOpen _ _ _ | AClose _ _ | ACreate _ _ | AHeader _ _ | ANewFile | ASend _ _ _ => false
  | _ => true
  end.

Definition qof (cf : config) (k : N) : nat := N.to_nat (k mod N.of_nat (nmarsh cf)).
Definition core (s : saver) : gmap N conn * nat * list action := (s_conns s, p_writer (s_pos s), s_log s).

Section Steps.
Variables (w : world) (cf : config).

Inductive cstep : gmap N conn * nat * list action -> gmap N conn * nat * list action -> Prop :=
| cs_quiet m n l a : neutral a = true -> cstep (m, n, l) (m, n, l ++ [a])
| cs_open m n l k id t e : m !! k = None -> k <> 0%N -> (k < two64)%N -> cookie_uint64 id = k ->
    last_now l = Some e ->
    cstep (m, n, l) (<[k := mkconn id t 0 e None]> m, n, l ++ [AOpen t k id])
| cs_expire m n l k c wr t : m !! k = Some c -> cn_writer c = Some wr -> last_now l = Some t -> (cn_exp c < t)%Z ->
    cstep (m, n, l) (<[k := set_writer None c]> m, n, l ++ [ASend (qof cf k) None wr])
| cs_rotate m n l k c t dp t' : m !! k = Some c -> cn_writer c = None -> last_now l = Some t ->
    dp = format_date (if (0 <? cn_seq c)%nat then t else cn_start c) ->
    cstep (m, n, l) (<[k := mkconn (cn_id c) (cn_start c) (S (cn_seq c)) (cn_exp c + 10 * minute)%Z (Some n)]> m, S n,
       l ++ [AMkdir t' dp; ACreate n (file_path dp (from_cookie (uuid_prefix w) (cookie_uint64 (cn_id c))) (cn_seq c));
             AHeader n (mkmeta (from_cookie (uuid_prefix w) (cookie_uint64 (cn_id c))) (Z.of_nat (cn_seq c)) (cn_start c));
             ANewFile])
| cs_send m n l k c wr msg : m !! k = Some c -> cn_writer c = Some wr -> usable msg -> cookie_of msg = k ->
    ((exists t, last_now l = Some t /\ (t <= cn_exp c)%Z) \/
     (exists l' b dp p md, l = l' ++ [AMkdir b dp; ACreate wr p; AHeader wr md; ANewFile])) ->
    cstep (m, n, l) (m, n, l ++ [ASend (qof cf k) (Some msg) wr])
| cs_close m n l k t : cstep (m, n, l) (m, n, l ++ [AClose t k])
| cs_end m n l k c wr : m !! k = Some c -> cn_writer c = Some wr -> (exists l' t, l = l' ++ [AClose t k]) ->
    cstep (m, n, l) (delete k m, n, l ++ [ASend (qof cf k) None wr]).

Definition csteps (s s' : saver) : Prop := rtc cstep (core s) (core s').

Lemma csteps_refl s s' : core s = core s' -> csteps s s'.
Proof. unfold csteps. intros ->. apply rtc_refl. Qed.
Lemma csteps_trans s1 s2 s3 : csteps s1 s2 -> csteps s2 s3 -> csteps s1 s3.
Proof. apply rtc_transitive. Qed.
Lemma csteps_quiet a s : neutral a = true -> csteps s (emit a s).
Proof. intros H. apply rtc_once. by constructor. Qed.

Lemma now_steps s t s' : now w s = (t, s') -> csteps s s' /\ last_now (s_log s') = Some t /\
  s_conns s' = s_conns s /\ p_writer (s_pos s') = p_writer (s_pos s) /\ s_dead s' = s_dead s /\ s_log s' = s_log s ++ [ANow t].
Proof.
  unfold now. intros E. injection E as <- <-. cbn. rewrite last_now_app. cbn.
  repeat split. apply rtc_once. unfold core. cbn. by constructor.
Qed.

Lemma rotate_steps k c s t : s_conns s !! k = Some c -> cn_writer c = None -> last_now (s_log s) = Some t ->
  match rotate w c s with
  | (s', Some c') => csteps s (set_conn k c' s') /\ cn_writer c' = Some (p_writer (s_pos s)) /\ s_conns s' = s_conns s /\
      exists l' b dp p md wr, s_log s' = l' ++ [AMkdir b dp; ACreate wr p; AHeader wr md; ANewFile] /\ cn_writer c' = Some wr
  | (s', None) => csteps s s' /\ s_conns s' = s_conns s
  end.
Proof.
  intros Hk Hw Ht. unfold rotate.
  assert (Hd : exists tt s1, csteps s s1 /\ last_now (s_log s1) = Some tt /\ s_conns s1 = s_conns s
      /\ p_writer (s_pos s1) = p_writer (s_pos s) /\
      (if (0 <? cn_seq c)%nat then let '(t, s) := now w s in (format_date t, s) else (format_date (cn_start c), s))
      = (format_date (if (0 <? cn_seq c)%nat then tt else cn_start c), s1)).
  { destruct (0 <? cn_seq c)%nat.
    - destruct (now w s) as [tt s1] eqn:En. destruct (now_steps _ _ _ En) as (H1 & H2 & H3 & H4 & _).
      exists tt, s1. done.
    - exists t, s. split; [by apply csteps_refl|]. done. }
  destruct Hd as (tt & s1 & St & Hl & Hc & Hp & ->).
  destruct (mkdir_ok w (p_mkdir (s_pos s1))); cbn [negb].
  - destruct (create_ok w _); cbn [negb].
    + split; [|split; [cbn; by rewrite Hp|split; [cbn; done|]]].
      * eapply csteps_trans; [exact St|]. apply rtc_once. unfold core, set_conn. cbn.
        rewrite <- !app_assoc. cbn. rewrite Hc. econstructor; eauto.
      * cbn. eexists (s_log s1), _, _, _, _, _. rewrite <- !app_assoc. cbn. split; reflexivity.
    + split; [|cbn; done]. eapply csteps_trans; [exact St|]. unfold csteps, core. cbn.
      eapply rtc_l; [|apply rtc_once]; by constructor.
  - split; [|cbn; done]. eapply csteps_trans; [exact St|]. apply rtc_once. unfold core. cbn. by constructor.
Qed.

Lemma parse_cell msg m : parse_idm (ar_raw (c_ar msg)) = Ret m ->
  usable msg /\ cookie (idiag_id m) = cookie_of msg /\ (cookie_of msg < two64)%N /\
  cookie_uint64 (get_sockid (idiag_id m)) = cookie_of msg.
Proof.
  intros H. apply parse_idm_ret in H as (b & Hb & Hl & ->).
  unfold usable, cookie_of, header. rewrite Hb. split; [done|]. split; [reflexivity|].
  split; [apply hdr_cookie_lt|apply sockid_cookie].
Qed.

Lemma queue_steps msg s : csteps s (queue w cf msg s).
Proof.
  unfold queue. destruct (parse_idm (ar_raw (c_ar msg))) as [m|e| |] eqn:Ep; [|by apply csteps_refl..].
  destruct (parse_cell _ _ Ep) as (Hu & -> & Hlt & Hid). set (k := cookie_of msg) in *.
  destruct (N.eqb_spec k 0); [by apply csteps_refl|].
  destruct (Nat.ltb_spec (nmarsh cf) 1); [by apply csteps_refl|].
  fold (qof cf k).
  lazymatch goal with |- csteps _ (let '(_, _) := ?x in _) =>
    assert (H1 : exists c s1, csteps s s1 /\ s_conns s1 !! k = Some c /\ x = (c, s1)) end.
  { destruct (s_conns s !! k) as [c|] eqn:Ek.
    - exists c, s. split; [apply csteps_refl; reflexivity|split; [exact Ek|reflexivity]].
    - destruct (now w s) as [t s1] eqn:En. destruct (now_steps _ _ _ En) as (S1 & L1 & C1 & P1 & _).
      eexists _, _. split; [|split; [|reflexivity]].
      + eapply csteps_trans; [exact S1|]. apply rtc_once. unfold core, set_conn. cbn.
        constructor; try assumption. rewrite C1. exact Ek.
      + unfold set_conn. cbn. by rewrite lookup_insert. }
  destruct H1 as (c & s1 & S1 & K1 & ->).
  eapply csteps_trans; [exact S1|]. clear S1 s. rename s1 into s.
  destruct (now w s) as [t s1] eqn:En. destruct (now_steps _ _ _ En) as (S1 & L1 & C1 & P1 & _).
  eapply csteps_trans; [exact S1|]. rewrite <- C1 in K1. clear C1 P1 S1 En s. rename s1 into s.
  destruct (cn_writer c) as [wr|] eqn:Ew.
  - destruct (Z.ltb_spec (cn_exp c) t) as [Hx|Hx].
    + cbn [cn_writer set_writer]. set (s2 := set_conn k (set_writer None c) (emit (ASend (qof cf k) None wr) s)).
      assert (St : csteps s s2).
      { apply rtc_once. unfold s2, core, set_conn. cbn. by eapply cs_expire. }
      eapply csteps_trans; [exact St|].
      assert (K2 : s_conns s2 !! k = Some (set_writer None c)) by (cbn; by rewrite lookup_insert).
      assert (L2 : last_now (s_log s2) = Some t) by (cbn; rewrite last_now_app; cbn; done).
      pose proof (rotate_steps k _ s2 t K2 eq_refl L2) as R.
      destruct (rotate w (set_writer None c) s2) as [s3 [c'|]].
      * destruct R as (St3 & W3 & C3 & l' & b & dp & p & md & wr' & El & W3'). rewrite W3'.
        eapply csteps_trans; [exact St3|]. apply rtc_once. unfold core, set_conn. cbn.
        eapply cs_send; [by rewrite lookup_insert|exact W3'|exact Hu|reflexivity|]. right. rewrite El. by eexists _, _, _, _, _.
      * apply R.
    + rewrite Ew. apply rtc_once. unfold core. cbn. eapply cs_send; [exact K1|exact Ew|exact Hu|reflexivity|]. left. exists t. split; assumption.
  - rewrite Ew. pose proof (rotate_steps k _ s t K1 Ew L1) as R.
    destruct (rotate w c s) as [s3 [c'|]].
    + destruct R as (St3 & W3 & C3 & l' & b & dp & p & md & wr' & El & W3'). rewrite W3'.
      eapply csteps_trans; [exact St3|]. apply rtc_once. unfold core, set_conn. cbn.
      eapply cs_send; [by rewrite lookup_insert|exact W3'|exact Hu|reflexivity|]. right. rewrite El. by eexists _, _, _, _, _.
    + apply R.
Qed.

Lemma end_conn_steps k s : csteps s (end_conn w cf k s).
Proof.
  unfold end_conn. destruct (now w s) as [t s1] eqn:En. destruct (now_steps _ _ _ En) as (S1 & _ & C1 & P1 & _).
  eapply csteps_trans; [exact S1|]. clear En S1 s C1 P1.
  assert (S2 : csteps s1 (emit (AClose t k) s1)) by (apply rtc_once; unfold core; cbn; constructor).
  eapply csteps_trans; [exact S2|]. assert (L2 : exists l' t', s_log (emit (AClose t k) s1) = l' ++ [AClose t' k]) by (by eexists _, _).
  set (s2 := emit (AClose t k) s1) in *. clearbody s2. clear S2 s1.
  destruct (Nat.eqb (nmarsh cf) 0); [by apply csteps_refl|].
  destruct (s_conns s2 !! k) as [c|] eqn:Ek; [|by apply csteps_refl].
  destruct (cn_writer c) as [wr|] eqn:Ew; [|by apply csteps_refl].
  apply rtc_once. unfold core. cbn. by eapply cs_end.
Qed.

Lemma swap_steps view pm s : csteps s (swap_and_queue w cf view pm s).
Proof.
  unfold swap_and_queue. destruct (update (s_cache (inc_total s)) pm) as [[old|e| |] c]; [|by apply csteps_refl..].
  destruct old as [oldc|].
  - destruct (parse_idm (ar_raw (c_ar pm))) as [m|e| |] eqn:Ep; [|by apply csteps_refl..].
    assert (Hq : forall s1 f, core s1 = core s -> (forall s, core (f s) = core s) ->
              csteps s (queue w cf pm (emit ASnapshot (f s1)))).
    { intros s1 f Hc Hf. eapply csteps_trans; [|apply queue_steps].
      eapply csteps_trans; [apply csteps_refl; symmetry; etransitivity; [apply Hf|exact Hc]|]. by apply csteps_quiet. }
    destruct (_ && _); (destruct (compare _ _) as [[]|?| |]; [by apply csteps_refl|by apply Hq..|by apply csteps_refl|by apply csteps_refl|by apply csteps_refl]).
  - eapply csteps_trans; [|apply queue_steps].
    eapply csteps_trans; [|by apply csteps_quiet]. by apply csteps_refl.
Qed.
Lemma handle_msg_steps view t msg s : csteps s (handle_msg w cf view t msg s).
Proof.
  unfold handle_msg. destruct (s_dead s); [by apply csteps_refl|]. destruct msg as [msg|]; [|by apply csteps_refl].
  destruct (make_archival_record msg (excl cf)) as [[ar|]|e| |]; [|by apply csteps_refl..].
  eapply csteps_trans; [|apply swap_steps]. by apply csteps_refl.
Qed.
Lemma fold_steps {A} (f : saver -> A -> saver) l s : (forall s a, csteps s (f s a)) -> csteps s (foldl f s l).
Proof.
  intros H. revert s. induction l as [|a l IH]; intros s; [by apply csteps_refl|]. cbn.
  eapply csteps_trans; [apply H|apply IH].
Qed.
Lemma end_round_steps s : csteps s (end_round w s).2.
Proof.
  unfold end_round. destruct (s_dead s); [by apply csteps_refl|]. apply rtc_once. unfold core. cbn. by constructor.
Qed.
Lemma close_one_steps view km s : csteps s (close_one w cf view km s).
Proof.
  unfold close_one. destruct (s_dead s); [by apply csteps_refl|]. destruct km as [k m].
  set (s1 := if negb (has_diag_info (view m)) then _ else _).
  assert (E : core s1.2 = core s).
  { unfold s1. destruct (negb _); [|done]. by destruct (s_closing s !! k). }
  destruct s1 as [st s1]. cbn in E.
  set (s2 := end_conn w cf k _).
  assert (H : csteps s s2).
  { eapply csteps_trans; [|apply end_conn_steps]. apply csteps_refl. by rewrite <- E. }
  destruct (s_dead s2); [done|]. eapply csteps_trans; [exact H|]. by apply csteps_refl.
Qed.
Lemma report_one_steps a b obs err s : (forall n, neutral (obs n) = true) -> (forall n, neutral (err n) = true) ->
  csteps s (report_one a b obs err s).2.
Proof. intros Ho He. unfold report_one. destruct (_ || _); cbn; by apply csteps_quiet. Qed.
Lemma report_steps t s : csteps s (report t s).
Proof.
  unfold report. destruct (s_dead s); [by apply csteps_refl|]. destruct (_ <? _)%Z; [|by apply csteps_refl].
  destruct (report_one _ _ AObsSent _ s) as [rs s1] eqn:E1.
  destruct (report_one _ _ AObsRecv _ s1) as [rr s2] eqn:E2.
  eapply csteps_trans.
  { epose proof (report_one_steps _ _ AObsSent AErrSent s (fun _ => eq_refl) (fun _ => eq_refl)) as H. rewrite E1 in H. exact H. }
  eapply csteps_trans; [|by apply csteps_refl].
  epose proof (report_one_steps _ _ AObsRecv AErrRecv s1 (fun _ => eq_refl) (fun _ => eq_refl)) as H. rewrite E2 in H. exact H.
Qed.
Lemma do_block_steps view b s : csteps s (do_block w cf view b s).
Proof.
  unfold do_block, handle_type. pose proof (end_round_steps (foldl (fun s m => handle_msg w cf view (V6Time b) m s)
    (foldl (fun s m => handle_msg w cf view (V4Time b) m s) s (V4Messages b)) (V6Messages b))) as H.
  destruct (end_round w _) as [res s1]. cbn in H.
  eapply csteps_trans; [|apply report_steps].
  eapply csteps_trans; [|apply fold_steps; intros; apply close_one_steps].
  eapply csteps_trans; [|exact H].
  eapply csteps_trans; [|apply fold_steps; intros; apply handle_msg_steps].
  apply fold_steps; intros; apply handle_msg_steps.
Qed.
Lemma loop_steps bs s : csteps s (loop w cf bs s).
Proof. apply fold_steps. intros; apply do_block_steps. Qed.
Lemma close_steps s : csteps s (close w cf s).
Proof.
  unfold close. destruct (s_dead s); [by apply csteps_refl|]. cbn [range_keys].
  set (s1 := foldl _ _ (order w _ _)).
  assert (H1 : csteps s s1).
  { eapply csteps_trans; [|apply fold_steps]; [by apply csteps_refl|].
    intros s2 k. unfold end_conn_alive. destruct (s_dead s2); [by apply csteps_refl|apply end_conn_steps]. }
  eapply csteps_trans; [exact H1|]. unfold close_chans. destruct (s_dead s1); [by apply csteps_refl|].
  eapply csteps_trans; [|by apply csteps_quiet]. apply fold_steps. intros; by apply csteps_quiet.
Qed.
Lemma message_saver_loop_steps bs : csteps new_saver (message_saver_loop w cf bs).
Proof. eapply csteps_trans; [apply loop_steps|apply close_steps]. Qed.
End Steps.
