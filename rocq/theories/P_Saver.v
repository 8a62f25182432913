(** Properties C17 to C24, C27, C31, C48: events, files, saved records, counters,
    exclusion and survival of the saver. *)
From Coq Require Import Strings.String.
From stdpp Require Import gmap.
From Coq Require Import NArith ZArith Lia.
From Verif Require Import GoBase GoTime Netlink SpecNetlink SpecCompare Cache SpecCache Saver SpecSaver
  SaverSteps SaverFiles SaverRotation SaverRuns SaverHistory SaverSizes Samples.
Local Open Scope list_scope.

(** ** The cases used below *)
(** A world where nothing fails and the n-th clock reading is at second [f n]. *)
Definition world_at (f : nat -> Z) : world :=
  mkworld (fun n => (1577836800 + f n) * second)%Z (fun _ => true) (fun _ => true) (fun _ l => l) (str "host_5e0be100"%string).
Definition w0 : world := world_at Z.of_nat.
Lemma w0_io f : io_ok (world_at f). Proof. intros n. split; reflexivity. Qed.
Lemma w0_fair f : fair_order (world_at f). Proof. intros n l. reflexivity. Qed.
Definition cf0 : config := mkconfig 3 None.
Definition blk (t : Z) (l : list nlmsg) : block := mkblock (t * second) (t * second) (map Some l) [].
(** Connection 7 appears, sends, is joined by 8, and disappears. *)
Definition bs0 : list block :=
  [blk 1 [conn_msg 7 10 20]; blk 2 [conn_msg 7 10 20]; blk 3 [conn_msg 7 10 90; conn_msg 8 1 1]; blk 4 [conn_msg 8 1 1]].

Definition message_okb (cf : config) (b : block) : bool :=
  forallb (fun m => match m with
                    | Some msg => match make_archival_record msg (excl cf) with Panic => false | _ => true end
                    | None => true end) (V4Messages b ++ V6Messages b) &&
  forallb (fun r => (72 <=? length (header r)) && match slot 2 r with Some i => 168 <=? length i | None => true end) (accepted cf b).
Lemma message_ok cf bs : forallb (message_okb cf) bs = true -> Forall (parses cf) bs /\ all_comparable cf bs.
Proof.
  intros H. induction bs as [|b bs IH]; [split; constructor|]. cbn [forallb] in H. apply andb_prop in H as [Hb H].
  destruct (IH H) as [I1 I2]. apply andb_prop in Hb as [H1 H2]. split; (apply Forall_cons; split; [|assumption]).
  - unfold parses. rewrite List.forallb_forall in H1. apply Forall_forall. intros m Hin msg -> E.
    apply elem_of_list_In in Hin. specialize (H1 _ Hin). cbn beta iota in H1. rewrite E in H1. discriminate H1.
  - rewrite List.forallb_forall in H2. apply Forall_forall. intros r Hin. apply elem_of_list_In in Hin. specialize (H2 _ Hin).
    apply andb_prop in H2 as [A B]. split; [by apply Nat.leb_le|]. intros i Hi. rewrite Hi in B. by apply Nat.leb_le.
Qed.
Lemma bs0_ok : Forall (parses cf0) bs0 /\ all_comparable cf0 bs0.
Proof. apply message_ok. vm_compute. reflexivity. Qed.
Example bs0_alive : s_dead (message_saver_loop w0 cf0 bs0) = false.
Proof. vm_compute. reflexivity. Qed.

(** ** C17 *)
Theorem C17_alternate : forall w cf, io_ok w -> 1 <= nmarsh cf -> fair_order w -> forall bs k, k <> 0%N ->
  alternating true (events k (s_log (message_saver_loop w cf bs))) /\
  (s_dead (message_saver_loop w cf bs) = false ->
   Nat.even (length (events k (s_log (message_saver_loop w cf bs)))) = true).
Proof. exact run_alternates. Qed.
Print Assumptions C17_alternate.

(** In every environment, crashed or not, at every moment. *)
Theorem C17_no_two_opens : forall w cf bs k a b,
  events k (s_log (loop w cf bs new_saver)) <> a ++ [true; true] ++ b /\
  events k (s_log (message_saver_loop w cf bs)) <> a ++ [true; true] ++ b.
Proof.
  intros w cf bs k a b. split; apply (no_double_open w cf); [apply loop_steps|apply message_saver_loop_steps].
Qed.
Print Assumptions C17_no_two_opens.

Example c17_case : events 7 (s_log (message_saver_loop w0 cf0 bs0)) = [true; false] /\
  events 8 (s_log (message_saver_loop w0 cf0 bs0)) = [true; false].
Proof. vm_compute. split; reflexivity. Qed.
(** A Close without an Open: cookie 0 is tracked but never opened. *)
Theorem C17_cookie_zero_refuted : exists w cf bs, io_ok w /\ 1 <= nmarsh cf /\ fair_order w /\
  events 0 (s_log (message_saver_loop w cf bs)) = [false].
Proof.
  exists w0, cf0, [blk 1 [conn_msg 0 10 20]; blk 2 []]. split; [apply w0_io|]. split; [cbn; lia|]. split; [apply w0_fair|].
  vm_compute. reflexivity.
Qed.
Print Assumptions C17_cookie_zero_refuted.
(** A duplicate Close: the file of connection 7 cannot be created, so its entry
    is never deleted. *)
Definition w_failing : world := mkworld (clock w0) (fun _ => true) (fun _ => false) (order w0) (uuid_prefix w0).
Theorem C17_failed_creation_refuted : exists w cf bs, 1 <= nmarsh cf /\ fair_order w /\
  events 7 (s_log (message_saver_loop w cf bs)) = [true; false; false].
Proof.
  exists w_failing, cf0, [blk 1 [conn_msg 7 10 20]; blk 2 []]. split; [cbn; lia|]. split; [apply w0_fair|].
  vm_compute. reflexivity.
Qed.
Print Assumptions C17_failed_creation_refuted.

(** ** C18 *)
Theorem C18_block_events : forall w cf, io_ok w -> 1 <= nmarsh cf -> fair_order w -> forall bs b,
  s_dead (loop w cf (bs ++ [b]) new_saver) = false ->
  exists e, s_log (loop w cf (bs ++ [b]) new_saver) = s_log (loop w cf bs new_saver) ++ e /\
    forall k, k <> 0%N ->
      (k ∉ cookies_of (last_accepted cf bs) -> k ∈ cookies_of (accepted cf b) -> events k e = [true]) /\
      (k ∈ cookies_of (last_accepted cf bs) -> k ∉ cookies_of (accepted cf b) -> events k e = [false]) /\
      ((k ∈ cookies_of (last_accepted cf bs) <-> k ∈ cookies_of (accepted cf b)) -> events k e = []).
Proof. exact block_events_spec. Qed.
Print Assumptions C18_block_events.
Example c18_case : s_dead (loop w0 cf0 bs0 new_saver) = false /\
  cookies_of (last_accepted cf0 (take 3 bs0)) = [7; 8]%N /\ cookies_of (accepted cf0 (blk 4 [conn_msg 8 1 1])) = [8]%N.
Proof. vm_compute. repeat split. Qed.

(** ** C19 *)
Theorem C19_one_connection_per_file : forall w cf bs wr,
  let l := s_log (message_saver_loop w cf bs) in
  file_actions wr l = [] \/ exists closed, file_history (uuid_prefix w) wr closed (file_actions wr l).
Proof. intros w cf bs wr. apply (file_histories w cf). apply message_saver_loop_steps. Qed.
Print Assumptions C19_one_connection_per_file.
(** Also while the saver is running. *)
Theorem C19_while_running : forall w cf bs wr,
  let l := s_log (loop w cf bs new_saver) in
  file_actions wr l = [] \/ exists closed, file_history (uuid_prefix w) wr closed (file_actions wr l).
Proof. intros w cf bs wr. apply (file_histories w cf). apply loop_steps. Qed.
Print Assumptions C19_while_running.

Example c19_case : exists path md m1 m2,
  file_actions 0 (s_log (message_saver_loop w0 cf0 bs0)) =
  [ACreate 0 path; AHeader 0 md; ASend 1 (Some m1) 0; ASend 1 (Some m2) 0; ASend 1 None 0] /\
  path = str "1970/01/01/host_5e0be100_0000000000000007.00000.jsonl.zst"%string.
Proof. vm_compute. repeat eexists. Qed.

(** ** C20 *)
Theorem C20_closed_once : forall w cf bs wr, 1 <= nmarsh cf -> fair_order w ->
  s_dead (loop w cf bs new_saver) = false ->
  let l := s_log (message_saver_loop w cf bs) in
  file_actions wr l = [] \/ file_history (uuid_prefix w) wr true (file_actions wr l).
Proof. exact all_closed. Qed.
Print Assumptions C20_closed_once.

(** The case is c19_case.  Without marshallers the saver crashes (C48). *)

(** ** C21 *)
Theorem C21_consecutive : forall w cf bs k, (k < two64)%N ->
  consecutive 0 (numbering (uuid_prefix w) k (s_log (message_saver_loop w cf bs))).
Proof. intros w cf bs k. apply (files_numbered w cf). apply message_saver_loop_steps. Qed.
Print Assumptions C21_consecutive.

Theorem C21_names : forall w cf bs l1 wr p l2, s_log (message_saver_loop w cf bs) = l1 ++ ACreate wr p :: l2 ->
  exists md l3, l2 = AHeader wr md :: l3 /\
    exists k t, (k < two64)%N /\ md_uuid md = from_cookie (uuid_prefix w) k /\ last_reading l1 = Some t /\ (0 <= md_seq md)%Z /\
      p = file_path (format_date (if (md_seq md =? 0)%Z then md_start md else t)) (from_cookie (uuid_prefix w) k) (Z.to_nat (md_seq md)).
Proof. intros w cf bs l1 wr p l2. apply (files_named w cf). apply message_saver_loop_steps. Qed.
Print Assumptions C21_names.

Theorem C21_path_injective : forall prefix k k' t t' n n', (k < two64)%N -> (k' < two64)%N ->
  file_path (format_date t) (from_cookie prefix k) n = file_path (format_date t') (from_cookie prefix k') n' ->
  format_date t = format_date t' /\ k = k' /\ n = n'.
Proof. intros prefix k k' t t' n n' Hk Hk' H. by apply file_path_inj in H. Qed.
Print Assumptions C21_path_injective.

(** A path is created again only after the connection was opened again. *)
Theorem C21_no_collision : forall w cf bs l1 wr1 wr2 p l2 l3,
  s_log (message_saver_loop w cf bs) = l1 ++ ACreate wr1 p :: l2 ++ ACreate wr2 p :: l3 ->
  exists t k id dp n, AOpen t k id ∈ l2 /\ p = file_path dp (from_cookie (uuid_prefix w) k) n.
Proof. intros w cf bs l1 wr1 wr2 p l2 l3. apply (same_path_reopened w cf). apply message_saver_loop_steps. Qed.
Print Assumptions C21_no_collision.

Definition creations (l : list action) : list (nat * bytes) :=
  omap (fun a => match a with ACreate w p => Some (w, p) | _ => None end) l.
(** A connection missing from one poll loses its file. *)
Theorem C21_truncation_refuted : exists w cf bs p, io_ok w /\ 1 <= nmarsh cf /\ fair_order w /\
  Forall (parses cf) bs /\ all_comparable cf bs /\
  creations (s_log (message_saver_loop w cf bs)) = [(0, p); (1, p)].
Proof.
  exists w0, cf0, [blk 1 [conn_msg 7 10 20]; blk 2 []; blk 3 [conn_msg 7 10 20]]. eexists.
  split; [apply w0_io|]. split; [cbn; lia|]. split; [apply w0_fair|].
  split; [apply message_ok; vm_compute; reflexivity|]. split; [apply message_ok; vm_compute; reflexivity|].
  vm_compute. reflexivity.
Qed.
Print Assumptions C21_truncation_refuted.

(** Clock readings 400 seconds apart: a file per change. *)
Definition w_slow : world := world_at (fun n => Z.of_nat n * 400)%Z.
Definition bs_slow : list block := [blk 1 [conn_msg 7 1 1]; blk 2 [conn_msg 7 1 2]; blk 3 [conn_msg 7 1 3]; blk 4 [conn_msg 7 1 4]].
Example c21_case : numbering (uuid_prefix w_slow) 7 (s_log (message_saver_loop w_slow cf0 bs_slow)) = [None; Some 0; Some 1; Some 2; Some 3]%Z.
Proof. vm_compute. reflexivity. Qed.

(** ** C22 *)
Theorem C22_ten_minutes : forall w cf bs tc p ts q msg wr,
  let l := s_log (message_saver_loop w cf bs) in nondecreasing (readings l) ->
  (tc, ACreate wr p) ∈ stamped None l -> (ts, ASend q (Some msg) wr) ∈ stamped None l ->
  exists c t, tc = Some c /\ ts = Some t /\ (c <= t <= c + 10 * minute)%Z.
Proof. intros w cf bs tc p ts q msg wr. apply (rotation_bound w cf). apply message_saver_loop_steps. Qed.
Print Assumptions C22_ten_minutes.

Theorem C22_not_before : forall w cf bs l1 wr md l2,
  let l := s_log (message_saver_loop w cf bs) in nondecreasing (readings l) ->
  l = l1 ++ AHeader wr md :: l2 ->
  exists k e t, (k < two64)%N /\ md_uuid md = from_cookie (uuid_prefix w) k /\
    opened_at k l1 = Some e /\ last_reading l1 = Some t /\
    (0 <= md_seq md)%Z /\ ((0 < md_seq md)%Z -> (e + md_seq md * (10 * minute) < t)%Z).
Proof. intros w cf bs l1 wr md l2. apply (started_late w cf). apply message_saver_loop_steps. Qed.
Print Assumptions C22_not_before.

Definition nondecreasingb : list Z -> bool :=
  fix f l := match l with x :: (y :: _) as r => (x <=? y)%Z && f r | _ => true end.
Lemma nondecreasingb_ok l : nondecreasingb l = true -> nondecreasing l.
Proof.
  induction l as [|x [|y l] IH]; cbn; [done|done|]. intros H. apply andb_prop in H as [H1 H2]. split; [by apply Z.leb_le|by apply IH].
Qed.
Example c22_case : nondecreasing (readings (s_log (message_saver_loop w_slow cf0 bs_slow))).
Proof. apply nondecreasingb_ok. vm_compute. reflexivity. Qed.
Definition created_at (l : list action) : list (nat * option Z) :=
  omap (fun x : option Z * action => match x.2 with ACreate wr _ => Some (wr, x.1) | _ => None end) (stamped None l).
(** The bound is not one from the opening of the connection: expirations are
    counted from the opening, so after a quiet hour every change starts a new file
    until the count has caught up; here files 1 and 2 are started two seconds
    apart, and file 0 stays the only one of the first hour. *)
Definition w_quiet : world := world_at (fun n => if (n <? 2)%nat then Z.of_nat n else 3600 + Z.of_nat n)%Z.
Theorem C22_files_ten_minutes_apart_refuted : exists w cf bs, io_ok w /\
  nondecreasing (readings (s_log (message_saver_loop w cf bs))) /\
  created_at (s_log (message_saver_loop w cf bs)) =
  [(0, Some (1577836801 * second)%Z); (1, Some (1577840403 * second)%Z); (2, Some (1577840405 * second)%Z); (3, Some (1577840407 * second)%Z)].
Proof.
  exists w_quiet, cf0, bs_slow. split; [apply w0_io|]. split; [apply nondecreasingb_ok; vm_compute; reflexivity|].
  vm_compute. reflexivity.
Qed.
Print Assumptions C22_files_ten_minutes_apart_refuted.

(** ** C23 *)
Theorem C23_nothing_missed : forall w cf, io_ok w -> 1 <= nmarsh cf -> fair_order w -> forall bs k r,
  s_dead (loop w cf bs new_saver) = false -> all_comparable cf bs -> k <> 0%N ->
  latest k (last_accepted cf bs) = Some r -> up_to_date k (queued (s_log (loop w cf bs new_saver))) r.
Proof. exact nothing_missed. Qed.
Print Assumptions C23_nothing_missed.

Example c23_case : s_dead (loop w0 cf0 (take 2 bs0) new_saver) = false /\ all_comparable cf0 (take 2 bs0) /\
  (exists r, latest 7 (last_accepted cf0 (take 2 bs0)) = Some r) /\
  length (queued (s_log (loop w0 cf0 (take 2 bs0) new_saver))) = 1.
Proof. split; [vm_compute; reflexivity|]. split; [apply message_ok; vm_compute; reflexivity|]. split; [vm_compute; eexists; reflexivity|vm_compute; reflexivity]. Qed.
(** With a file that cannot be created the change is lost. *)
Theorem C23_failed_creation_refuted : exists w cf bs r, 1 <= nmarsh cf /\ fair_order w /\
  s_dead (loop w cf bs new_saver) = false /\ all_comparable cf bs /\
  latest 7 (last_accepted cf bs) = Some r /\ queued (s_log (loop w cf bs new_saver)) = [].
Proof.
  exists w_failing, cf0, (take 1 bs0). eexists. split; [cbn; lia|]. split; [apply w0_fair|]. split; [vm_compute; reflexivity|].
  split; [apply message_ok; vm_compute; reflexivity|]. split; vm_compute; reflexivity.
Qed.
Print Assumptions C23_failed_creation_refuted.

(** ** C24 *)
Theorem C24_saved_iff_new_or_changed : forall w cf, io_ok w -> 1 <= nmarsh cf -> fair_order w -> forall bs b,
  Forall (parses cf) (bs ++ [b]) -> all_comparable cf (bs ++ [b]) ->
  exists e, s_log (loop w cf (bs ++ [b]) new_saver) = s_log (loop w cf bs new_saver) ++ e /\
    to_save (last_accepted cf bs) [] (accepted cf b) (queued e).
Proof. exact block_saves. Qed.
Print Assumptions C24_saved_iff_new_or_changed.

(** The same for histories with records that are not comparable, by the verdict
    of Compare. *)
Theorem C24_saved_by_verdict : forall w cf, io_ok w -> 1 <= nmarsh cf -> fair_order w -> forall bs b,
  s_dead (loop w cf (bs ++ [b]) new_saver) = false ->
  exists e, s_log (loop w cf (bs ++ [b]) new_saver) = s_log (loop w cf bs new_saver) ++ e /\
    queued e = saves (last_accepted cf bs) [] (accepted cf b).
Proof. intros w cf H1 H2 H3 bs b Hd. destruct (block_step w cf H1 H2 H3 bs b Hd) as (e & L & Q & _). by exists e. Qed.
Print Assumptions C24_saved_by_verdict.

(** In every environment nothing else is queued, and nothing twice. *)
Theorem C24_nothing_else : forall w cf, fair_order w -> forall bs b, s_dead (loop w cf (bs ++ [b]) new_saver) = false ->
  exists e, s_log (loop w cf (bs ++ [b]) new_saver) = s_log (loop w cf bs new_saver) ++ e /\
    queued e `sublist_of` saves (last_accepted cf bs) [] (accepted cf b).
Proof. exact block_sublist. Qed.
Print Assumptions C24_nothing_else.

Example c24_case : map (fun b => length (accepted cf0 b)) bs0 = [1; 1; 2; 1] /\
  map (fun n => length (queued (s_log (loop w0 cf0 (take n bs0) new_saver)))) [1; 2; 3; 4] = [1; 1; 3; 3].
Proof. vm_compute. split; reflexivity. Qed.
(** A connection met twice in one block is saved twice, even unchanged. *)
Theorem C24_twice_in_one_block_refuted : exists w cf b, io_ok w /\ 1 <= nmarsh cf /\ fair_order w /\
  V4Messages b = [Some (conn_msg 7 10 20); Some (conn_msg 7 10 20)] /\
  length (queued (s_log (loop w cf [b] new_saver))) = 2.
Proof.
  exists w0, cf0, (blk 1 [conn_msg 7 10 20; conn_msg 7 10 20]). split; [apply w0_io|]. split; [cbn; lia|]. split; [apply w0_fair|].
  split; [reflexivity|vm_compute; reflexivity].
Qed.
Print Assumptions C24_twice_in_one_block_refuted.

(** ** C27 *)
Theorem C27_counters : forall w cf, fair_order w -> forall bs, s_dead (loop w cf bs new_saver) = false ->
  let s := loop w cf bs new_saver in
  n_total (s_stats s) = length (concat (map (accepted cf) bs)) /\
  n_new (s_stats s) + n_diff (s_stats s) = count is_snapshot (s_log s) /\
  n_new (s_stats s) + n_diff (s_stats s) <= n_total (s_stats s) /\
  n_expired (s_stats s) = count is_close (s_log s).
Proof. intros w cf Hf bs Hd. apply (loop_counted w cf Hf bs Hd). Qed.
Print Assumptions C27_counters.

Theorem C27_same_figure : forall w cf, fair_order w -> forall bs, s_dead (loop w cf bs new_saver) = false ->
  let '(total, _, same, diff, new) := log_cache_stats 0 0 (loop w cf bs new_saver) in
  (0 <= same)%Z /\ (total = same + diff + new)%Z.
Proof. exact log_same. Qed.
Print Assumptions C27_same_figure.

(** The cache size is observed once per block: the number of connections accepted in
    it. *)
Theorem C27_cache_sizes : forall w cf, fair_order w -> forall bs, s_dead (loop w cf bs new_saver) = false ->
  cache_sizes (s_log (loop w cf bs new_saver)) = map (fun b => length (remove_dups (cookies_of (accepted cf b)))) bs.
Proof. intros w cf Hf bs Hd. apply (loop_sizes w cf Hf bs Hd). Qed.
Print Assumptions C27_cache_sizes.
(** Every file that was created is counted, and nothing else, in every environment. *)
Theorem C27_files : forall w cf bs, count is_new_file (s_log (message_saver_loop w cf bs)) = count is_created (s_log (message_saver_loop w cf bs)).
Proof. exact steps_files. Qed.
Print Assumptions C27_files.
Example c27_sizes : cache_sizes (s_log (loop w0 cf0 bs0 new_saver)) = [1; 1; 2; 1] /\ count is_created (s_log (message_saver_loop w0 cf0 bs0)) = 2.
Proof. split; vm_compute; reflexivity. Qed.

Example c27_case : s_stats (loop w0 cf0 bs0 new_saver) = mkcnt 5 2 1 1.
Proof. vm_compute. reflexivity. Qed.

(** ** C31 *)
Theorem C31_no_trace : forall w cf bs bs', Forall2 (padded_block (excl cf)) bs bs' ->
  message_saver_loop w cf bs' = message_saver_loop w cf bs.
Proof. exact run_padded. Qed.
Print Assumptions C31_no_trace.

(** Excluding is never having received: the same run without any exclusion. *)
Theorem C31_as_never_received : forall w cf bs,
  message_saver_loop w cf bs = message_saver_loop w (mkconfig (nmarsh cf) None) (map (without (excl cf)) bs).
Proof. exact run_absent. Qed.
Print Assumptions C31_as_never_received.

Definition ex_demo : exclude_config := mkex true None None.
Example c31_case : Forall2 (padded_block (Some ex_demo))
  [blk 1 [conn_msg 7 10 20]]
  [mkblock (1 * second) (1 * second)
     [None; Some (sample_msg (sample_hdr 2 1 443 5000 (v4 127 0 0 1) (v4 127 0 0 1) 9)); Some (conn_msg 7 10 20); Some (sample_msg [x01])] []].
Proof.
  constructor; [|constructor]. split; [reflexivity|]. split; [reflexivity|]. split; [|constructor].
  apply pad_put; [exact I|]. apply pad_put.
  { right. right. left. exists ex_demo. split; [reflexivity|]. right. left. split; [reflexivity|]. left. left. split; [intros i Hi; do 16 (destruct i as [|i]; [first [lia|vm_compute; reflexivity]|]); lia|]. left. vm_compute. reflexivity. }
  apply pad_keep. apply pad_put; [|constructor]. right. left. vm_compute. lia.
Qed.

(** ** C48 *)
Theorem C48_survives : forall w cf, 1 <= nmarsh cf -> fair_order w -> forall bs,
  Forall (parses cf) bs -> all_comparable cf bs -> s_dead (message_saver_loop w cf bs) = false.
Proof. exact survives_shutdown. Qed.
Print Assumptions C48_survives.

Example c48_case : Forall (parses cf0) bs0 /\ all_comparable cf0 bs0. Proof. exact bs0_ok. Qed.
(** Without marshallers the first disappearance crashes the saver. *)
Theorem C48_no_marshaller_refuted : exists w cf bs, io_ok w /\ fair_order w /\ Forall (parses cf) bs /\ all_comparable cf bs /\
  s_dead (message_saver_loop w cf bs) = true.
Proof.
  exists w0, (mkconfig 0 None), [blk 1 [conn_msg 7 10 20]; blk 2 []]. split; [apply w0_io|]. split; [apply w0_fair|].
  split; [apply message_ok; vm_compute; reflexivity|]. split; [apply message_ok; vm_compute; reflexivity|]. vm_compute. reflexivity.
Qed.
Print Assumptions C48_no_marshaller_refuted.
(** So does a TCP_INFO shorter than 168 bytes in two successive polls. *)
Theorem C48_short_info_refuted : exists w cf bs, io_ok w /\ 1 <= nmarsh cf /\ fair_order w /\ Forall (parses cf) bs /\
  s_dead (message_saver_loop w cf bs) = true.
Proof.
  set (m := sample_msg (sample_hdr 2 1 443 5000 (v4 10 0 0 1) (v4 192 0 2 7) 7 ++ sample_attr 2 (repeat x01 104))).
  exists w0, cf0, [blk 1 [m]; blk 2 [m]]. split; [apply w0_io|]. split; [cbn; lia|]. split; [apply w0_fair|].
  split; [|vm_compute; reflexivity]. repeat constructor; (intros msg E; injection E as <-; vm_compute; discriminate).
Qed.
Print Assumptions C48_short_info_refuted.
