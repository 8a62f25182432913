(** Start times and numbers in the headers of files: the start times are times
    of blocks, the numbers are below the length of the log. *)
From stdpp Require Import gmap.
From Coq Require Import NArith ZArith Lia.
From Verif Require Import GoBase Inetdiag Netlink Cache Saver SpecSaver.
Local Open Scope Z_scope.

Section Times.
Variables (w : world) (cf : config) (T : Z -> Prop).

Definition header_fine (n : nat) (a : action) : Prop :=
  match a with AHeader _ md => T (md_start md) /\ 0 <= md_seq md < Z.of_nat n | _ => True end.
Definition conn_fine (n : nat) (c : conn) : Prop := T (cn_start c) /\ (cn_seq c <= n)%nat.
(** Only the table and the log matter. *)
Definition fine2 (m : gmap N conn) (l : list action) : Prop :=
  (forall a, a ∈ l -> header_fine (length l) a) /\ (forall k c, m !! k = Some c -> conn_fine (length l) c).
Definition fine (s : saver) : Prop := fine2 (s_conns s) (s_log s).

Lemma fine2_snoc m l a : header_fine (S (length l)) a -> fine2 m l -> fine2 m (l ++ [a]).
Proof.
  intros Ha [H1 H2]. unfold fine2. rewrite app_length. cbn [length]. split.
  - intros x Hx. apply elem_of_app in Hx as [Hx|Hx].
    + specialize (H1 x Hx). unfold header_fine in *. destruct x; try exact I. destruct H1 as [A B]. split; [exact A|]. lia.
    + apply elem_of_list_singleton in Hx. subst x. replace (length l + 1)%nat with (S (length l)) by lia. exact Ha.
  - intros k c E. destruct (H2 k c E) as [A B]. split; [exact A|]. lia.
Qed.
Lemma fine2_set m l k c : conn_fine (length l) c -> fine2 m l -> fine2 (<[k := c]> m) l.
Proof.
  intros Hc [H1 H2]. split; [exact H1|]. intros k' c' E. apply lookup_insert_Some in E as [[_ <-]|[_ E]]; [exact Hc|exact (H2 k' c' E)].
Qed.
Lemma fine2_delete m l k : fine2 m l -> fine2 (delete k m) l.
Proof. intros [H1 H2]. split; [exact H1|]. intros k' c E. apply lookup_delete_Some in E as [_ E]. exact (H2 k' c E). Qed.
Lemma fine_emit a s : header_fine (S (length (s_log s))) a -> fine s -> fine (emit a s).
Proof. apply fine2_snoc. Qed.
Lemma conn_more n n' c : (n <= n')%nat -> conn_fine n c -> conn_fine n' c.
Proof. intros H [A B]. split; [exact A|lia]. Qed.

Lemma rotate_fine c s s' o : rotate w c s = (s', o) -> fine s -> conn_fine (length (s_log s)) c ->
  fine s' /\ (length (s_log s) <= length (s_log s'))%nat /\ forall c', o = Some c' -> conn_fine (length (s_log s')) c'.
Proof.
  unfold rotate.
  set (x := if (0 <? cn_seq c)%nat then _ else _).
  assert (X : fine s -> fine x.2 /\ (length (s_log s) <= length (s_log x.2))%nat).
  { intros F. unfold x. destruct (0 <? cn_seq c)%nat; cbn; [|split; [exact F|lia]]. split; [apply fine2_snoc; [exact I|exact F]|].
    rewrite app_length. lia. }
  destruct x as [dp s1]. cbn [snd] in X. intros E F C. destruct (X F) as [F1 L1]. clear X.
  destruct (mkdir_ok w (p_mkdir (s_pos s1))); cbn [negb] in E.
  2:{ injection E as <- <-. split; [apply fine2_snoc; [exact I|exact F1]|]. split; [cbn [s_log emit with_pos set_conn with_conns s_pos]; rewrite app_length; lia|discriminate]. }
  cbn [s_pos emit with_pos p_create p_writer p_clock p_mkdir p_range p_uid] in E.
  destruct (create_ok w (p_create (s_pos s1))); cbn [negb] in E.
  2:{ injection E as <- <-. split; [apply fine2_snoc; [exact I|]; apply fine2_snoc; [exact I|exact F1]|].
      split; [cbn [s_log emit with_pos set_conn with_conns s_pos]; rewrite !app_length; lia|discriminate]. }
  injection E as <- <-. destruct C as [C1 C2].
  assert (F2 : fine2 (s_conns s1) ((s_log s1 ++ [AMkdir true dp]) ++ [ACreate (p_writer (s_pos s1)) (file_path dp (from_cookie (uuid_prefix w) (cookie_uint64 (cn_id c))) (cn_seq c))])).
  { apply fine2_snoc; [exact I|]. apply fine2_snoc; [exact I|exact F1]. }
  split; [|split].
  - apply fine2_snoc; [exact I|]. apply fine2_snoc; [|exact F2].
    cbn [header_fine md_start md_seq s_log emit with_pos s_pos]. split; [exact C1|]. cbn [s_log emit with_pos s_pos]; rewrite !app_length. cbn [length]. lia.
  - cbn [s_log emit with_pos set_conn with_conns s_pos cn_seq]. rewrite !app_length. cbn [length]. lia.
  - intros c' E. injection E as <-. split; [exact C1|]. cbn [s_log emit with_pos set_conn with_conns s_pos cn_seq]. rewrite !app_length. cbn [length]. lia.
Qed.

Lemma queue_fine msg s : T (ar_time (c_ar msg)) -> fine s -> fine (queue w cf msg s).
Proof.
  intros Ht F. unfold queue. destruct (parse_idm (ar_raw (c_ar msg))) as [m| | |]; try exact F.
  destruct (N.eqb (cookie (idiag_id m)) 0); [exact F|]. destruct (nmarsh cf <? 1)%nat; [exact F|].
  set (k := cookie (idiag_id m)). set (q := N.to_nat _).
  set (x := match s_conns s !! k with Some c => (c, s) | None => _ end).
  assert (X : fine x.2 /\ conn_fine (length (s_log x.2)) x.1).
  { unfold x. destruct (s_conns s !! k) as [c|] eqn:E; cbn.
    - split; [exact F|]. destruct F as [_ F]. exact (F k c E).
    - assert (C : forall n t, conn_fine n (mkconn (get_sockid (idiag_id m)) (ar_time (c_ar msg)) 0 t None)) by (intros n t; split; [exact Ht|apply Nat.le_0_l]).
      split; [|apply C]. apply fine2_set; [apply C|]. apply fine2_snoc; [exact I|]. apply fine2_snoc; [exact I|exact F]. }
  destruct x as [c s1]. cbn [fst snd] in X. destruct X as [F1 C1].
  cbn [now]. set (t := clock w _). set (s2 := emit _ _).
  assert (F2 : fine s2) by (apply fine2_snoc; [exact I|exact F1]).
  assert (C2 : conn_fine (length (s_log s2)) c) by (apply (conn_more (length (s_log s1))); [unfold s2; cbn [s_log emit with_pos set_conn with_conns s_pos]; rewrite app_length; lia|exact C1]).
  clearbody s2 t.
  set (y := match cn_writer c with Some wr => if (cn_exp c <? t) then _ else _ | None => _ end).
  assert (Y : fine y.2 /\ conn_fine (length (s_log y.2)) y.1).
  { unfold y. destruct (cn_writer c) as [wr|]; [|split; [exact F2|exact C2]].
    destruct (cn_exp c <? t); [|split; [exact F2|exact C2]]. cbn.
    assert (C3 : conn_fine (length (s_log s2 ++ [ASend q None wr])) (set_writer None c)).
    { destruct C2 as [A B]. split; [exact A|]. rewrite app_length. cbn. lia. }
    split; [|exact C3]. apply fine2_set; [exact C3|]. apply fine2_snoc; [exact I|exact F2]. }
  destruct y as [c2 s3]. cbn [fst snd] in Y. destruct Y as [F3 C3].
  destruct (cn_writer c2) as [wr|]; [apply fine_emit; [exact I|exact F3]|].
  destruct (rotate w c2 s3) as [s4 o] eqn:R. destruct (rotate_fine c2 s3 s4 o R F3 C3) as (F4 & L & C4).
  destruct o as [c'|]; [|exact F4]. specialize (C4 c' eq_refl).
  assert (F5 : fine (set_conn k c' s4)) by (apply fine2_set; [exact C4|exact F4]).
  destruct (cn_writer c') as [wr|]; [apply fine_emit; [exact I|exact F5]|exact F5].
Qed.

Lemma end_conn_fine k s : fine s -> fine (end_conn w cf k s).
Proof.
  intros F. unfold end_conn. cbn [now]. set (s1 := emit (AClose _ _) _).
  assert (F1 : fine s1) by (apply fine2_snoc; [exact I|]; apply fine2_snoc; [exact I|exact F]). clearbody s1.
  destruct (Nat.eqb (nmarsh cf) 0); [exact F1|]. destruct (s_conns s1 !! k) as [c|]; [|exact F1].
  destruct (cn_writer c) as [wr|]; [|exact F1]. apply fine2_delete. apply fine2_snoc; [exact I|exact F1].
Qed.

Lemma handle_msg_fine view t msg s : T t -> fine s -> fine (handle_msg w cf view t msg s).
Proof.
  intros Ht F. unfold handle_msg. destruct (s_dead s); [exact F|]. destruct msg as [msg|]; [|exact F].
  destruct (make_archival_record msg (excl cf)) as [[ar|]| | |]; try exact F.
  unfold swap_and_queue. set (pm := mkcell _ _). set (s1 := with_loop _ _). assert (F1 : fine s1) by exact F. clearbody s1.
  assert (Hq : forall s, fine s -> fine (queue w cf pm s)) by (intros s'; apply queue_fine; exact Ht).
  clearbody pm. cbn [s_cache inc_total with_stats].
  destruct (update (s_cache s1) pm) as [[old| | |] c]; try exact F1.
  destruct old as [oldc|].
  - destruct (parse_idm (ar_raw (c_ar pm))) as [m| | |]; try exact F1.
    destruct (negb (has_diag_info (c_ar pm)) && has_diag_info (view oldc));
      destruct (compare (c_ar pm) (Some (view oldc))) as [[]| | |]; try exact F1; apply Hq, fine_emit; try exact I; exact F1.
  - apply Hq, fine_emit; [exact I|exact F1].
Qed.
Lemma handle_type_fine view t msgs s : T t -> fine s -> fine (handle_type w cf view t msgs s).
Proof.
  intros Ht. unfold handle_type. revert s. induction msgs as [|m msgs IH]; intros s F; [exact F|].
  cbn [foldl]. apply IH, handle_msg_fine; assumption.
Qed.
Lemma close_one_fine view km s : fine s -> fine (close_one w cf view km s).
Proof.
  intros F. unfold close_one. destruct (s_dead s); [exact F|]. destruct km as [k m].
  set (x := if negb (has_diag_info (view m)) then _ else _).
  assert (X : fine x.2) by (unfold x; destruct (negb _); [destruct (s_closing s !! k)|]; exact F).
  destruct x as [st s1]. cbn [snd] in X.
  set (s2 := with_loop _ s1). assert (F2 : fine (end_conn w cf k s2)) by (apply end_conn_fine; exact X).
  destruct (s_dead (end_conn w cf k s2)); exact F2.
Qed.
Lemma report_fine t s : fine s -> fine (report t s).
Proof.
  intros F. unfold report. destruct (s_dead s); [exact F|]. destruct (l_last (s_loop s) <? GoTime.unix t); [|exact F].
  unfold report_one. repeat match goal with |- context [if ?b then _ else _] => destruct b end;
    (apply fine2_snoc; [exact I|]; apply fine2_snoc; [exact I|exact F]).
Qed.
Lemma do_block_fine view b s : T (V4Time b) -> T (V6Time b) -> fine s -> fine (do_block w cf view b s).
Proof.
  intros H4 H6 F. unfold do_block. set (s1 := handle_type _ _ _ _ _ (handle_type _ _ _ _ _ _)).
  assert (F1 : fine s1) by (apply handle_type_fine; [exact H6|]; apply handle_type_fine; [exact H4|exact F]). clearbody s1.
  assert (F2 : fine (end_round w s1).2).
  { unfold end_round. destruct (s_dead s1); [exact F1|]. cbn. apply fine2_snoc; [exact I|exact F1]. }
  destruct (end_round w s1) as [res s2]. cbn [snd] in F2. apply report_fine. revert s2 F2.
  induction res as [|km res IH]; intros s2 F2; [exact F2|]. cbn [foldl]. apply IH, close_one_fine, F2.
Qed.
Lemma run_fine bs : Forall (fun b => T (V4Time b) /\ T (V6Time b)) bs -> fine (message_saver_loop w cf bs).
Proof.
  intros H. unfold message_saver_loop. assert (F : fine (loop w cf bs new_saver)).
  { unfold loop. assert (G : fine new_saver) by (split; [intros a Ha; apply elem_of_nil in Ha; contradiction|intros k c E; change ((∅ : gmap N conn) !! k = Some c) in E; rewrite lookup_empty in E; discriminate E]).
    revert G. generalize new_saver. induction H as [|b bs [H4 H6] Hb IH]; intros s G; [exact G|]. cbn [foldl]. apply IH, do_block_fine; assumption. }
  unfold close. destruct (s_dead (loop w cf bs new_saver)); [exact F|]. cbn [range_keys].
  set (s1 := with_pos _ _). assert (F1 : fine s1) by exact F. clearbody s1. generalize (order w (p_range (s_pos (loop w cf bs new_saver))) (map_to_list (s_conns (loop w cf bs new_saver))).*1). intros keys.
  assert (F2 : fine (foldl (fun s k => end_conn_alive w cf k s) s1 keys)).
  { revert s1 F1. induction keys as [|k keys IH]; intros s1 F1; [exact F1|]. cbn [foldl]. apply IH. unfold end_conn_alive.
    destruct (s_dead s1); [exact F1|apply end_conn_fine, F1]. }
  revert F2. generalize (foldl (fun s k => end_conn_alive w cf k s) s1 keys). intros s2 F2.
  unfold close_chans. destruct (s_dead s2); [exact F2|]. apply fine_emit; [exact I|].
  generalize (seq 0 (nmarsh cf)). intros qs. revert s2 F2. induction qs as [|q qs IH]; intros s2 F2; [exact F2|].
  cbn [foldl]. apply IH. apply fine_emit; [exact I|exact F2].
Qed.

Lemma headers_fine bs wr md : Forall (fun b => T (V4Time b) /\ T (V6Time b)) bs ->
  AHeader wr md ∈ s_log (message_saver_loop w cf bs) ->
  T (md_start md) /\ 0 <= md_seq md < Z.of_nat (length (s_log (message_saver_loop w cf bs))).
Proof. intros H E. destruct (run_fine bs H) as [F _]. exact (F _ E). Qed.
End Times.
