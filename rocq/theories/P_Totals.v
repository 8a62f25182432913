(** Properties C25 and C26: byte totals and throughput reports. *)
From Coq Require Import Strings.String.
From stdpp Require Import gmap.
From Coq Require Import NArith ZArith Lia.
From Verif Require Import GoBase GoTime Netlink SpecNetlink SpecCompare Cache SpecCache Saver SpecSaver SpecTotals
  SaverRuns SaverTotals Samples P_Saver.
Local Open Scope list_scope.

(** ** C25 *)
(** In a disciplined history, the report after each round is the one due for
    the sum, over all connections that ever existed, of the last bytes they
    reported. *)
Theorem C25_totals : forall w cf, fair_order w -> forall bs b,
  s_dead (loop w cf (bs ++ [b]) new_saver) = false -> disciplined (rounds cf (bs ++ [b])) ->
  let G := grand_total (rounds cf (bs ++ [b])) in
  exists e, s_log (loop w cf (bs ++ [b]) new_saver) = s_log (loop w cf bs new_saver) ++ e /\
    reports e = expected (s_log (loop w cf bs new_saver)) (G.1 mod 2 ^ 64, G.2 mod 2 ^ 64)%N (due bs b).
Proof. exact block_totals. Qed.
Print Assumptions C25_totals.

(** The discipline, decided. *)
Definition byte_counts_dec (r : archival) : bool := match byte_counts r with Some _ => true | None => false end.
Definition bareb (r : archival) : bool := length (ar_attrs r) <=? 2.
Fixpoint disciplinedb (rh : list (list archival)) : bool :=
  match rh with
  | [] => true
  | C :: rh' =>
      bool_decide (NoDup (cookies_of C)) && forallb (fun r => byte_counts_dec r || bareb r) C &&
      match rh' with
      | P :: _ => forallb (fun o => forallb (fun r => implb ((rec_cookie o =? rec_cookie r)%N && bareb o) (bareb r)) C) P
      | [] => true
      end && disciplinedb rh'
  end.
Lemma disciplinedb_ok rh : disciplinedb rh = true -> disciplined rh.
Proof.
  induction rh as [|C rh IH]; [intros _; exact I|]. cbn [disciplinedb disciplined]. intros H.
  apply andb_prop in H as [H H4]. apply andb_prop in H as [H H3]. apply andb_prop in H as [H1 H2].
  split; [by apply bool_decide_eq_true in H1|]. split.
  { rewrite List.forallb_forall in H2. apply Forall_forall. intros r Hr. apply elem_of_list_In in Hr. specialize (H2 r Hr).
    apply orb_prop in H2 as [H2|H2]; [left|right; by apply Nat.leb_le].
    unfold byte_counts_dec in H2. destruct (byte_counts r) as [x|]; [by exists x|discriminate H2]. }
  split; [|exact (IH H4)]. destruct rh as [|P rh]; [exact I|]. rewrite List.forallb_forall in H3.
  intros o r Ho Hr E B. apply elem_of_list_In in Ho, Hr. specialize (H3 o Ho). cbn beta in H3. rewrite List.forallb_forall in H3.
  specialize (H3 r Hr). rewrite E, N.eqb_refl in H3. replace (bareb o) with true in H3 by (symmetry; by apply Nat.leb_le).
  by apply Nat.leb_le.
Qed.

(** Connection 7 grows, loses its TCP_INFO and ends; connection 8 stays. *)
Definition bs25 : list block :=
  [blk 1 [conn_msg 7 10 20]; blk 2 [conn_msg 7 30 20; conn_msg 8 1 1]; blk 3 [bare_msg 7; conn_msg 8 5 1]; blk 4 [conn_msg 8 5 2]].
Definition b25 : block := blk 5 [conn_msg 8 6 9; conn_msg 9 100 100].
Example c25_case :
  s_dead (loop w0 cf0 (bs25 ++ [b25]) new_saver) = false /\ disciplined (rounds cf0 (bs25 ++ [b25])) /\
  due bs25 b25 = true /\ grand_total (rounds cf0 (bs25 ++ [b25])) = (136, 129)%N /\
  observed_sent (s_log (loop w0 cf0 (bs25 ++ [b25]) new_saver)) = [10; 21; 4; 0; 101]%N /\
  observed_recv (s_log (loop w0 cf0 (bs25 ++ [b25]) new_saver)) = [20; 1; 0; 1; 107]%N.
Proof. split; [|split; [apply disciplinedb_ok|]]; vm_compute; repeat split. Qed.

(** Without the discipline the claim fails: *)
(** a connection that keeps an attribute above TCP_INFO but not TCP_INFO itself
    takes its bytes out of the total, for good; *)
Definition congested_msg (k : N) : nlmsg :=
  sample_msg (sample_hdr 2 4 443 5000 (v4 10 0 0 1) (v4 192 0 2 7) k ++ sample_attr 4 (str "bbr" ++ [x00])).
Theorem C25_bytes_vanish_refuted : exists bs b,
  s_dead (loop w0 cf0 (bs ++ [b]) new_saver) = false /\ Forall (fun C => NoDup (cookies_of C)) (rounds cf0 (bs ++ [b])) /\
  grand_total (rounds cf0 (bs ++ [b])) = (10, 20)%N /\
  exists e, s_log (loop w0 cf0 (bs ++ [b]) new_saver) = s_log (loop w0 cf0 bs new_saver) ++ e /\ reports e = [AErrSent true; AErrRecv true].
Proof.
  exists [blk 1 [conn_msg 7 10 20]; blk 2 [congested_msg 7]], (blk 3 []).
  split; [vm_compute; reflexivity|]. split; [apply (bool_decide_unpack _); vm_compute; exact I|]. split; [vm_compute; reflexivity|].
  exists (skipn (length (s_log (loop w0 cf0 [blk 1 [conn_msg 7 10 20]; blk 2 [congested_msg 7]] new_saver)))
    (s_log (loop w0 cf0 [blk 1 [conn_msg 7 10 20]; blk 2 [congested_msg 7]; blk 3 []] new_saver))).
  split; vm_compute; reflexivity.
Qed.
Print Assumptions C25_bytes_vanish_refuted.
(** a connection whose TCP_INFO comes back is counted twice. *)
Theorem C25_counted_twice_refuted : exists bs b,
  s_dead (loop w0 cf0 (bs ++ [b]) new_saver) = false /\ Forall (fun C => NoDup (cookies_of C)) (rounds cf0 (bs ++ [b])) /\
  grand_total (rounds cf0 (bs ++ [b])) = (10, 20)%N /\
  exists e, s_log (loop w0 cf0 (bs ++ [b]) new_saver) = s_log (loop w0 cf0 bs new_saver) ++ e /\ reports e = [AObsSent 10; AObsRecv 20].
Proof.
  exists [blk 1 [conn_msg 7 10 20]; blk 2 [bare_msg 7]], (blk 3 [conn_msg 7 10 20]).
  split; [vm_compute; reflexivity|]. split; [apply (bool_decide_unpack _); vm_compute; exact I|]. split; [vm_compute; reflexivity|].
  exists (skipn (length (s_log (loop w0 cf0 [blk 1 [conn_msg 7 10 20]; blk 2 [bare_msg 7]] new_saver)))
    (s_log (loop w0 cf0 [blk 1 [conn_msg 7 10 20]; blk 2 [bare_msg 7]; blk 3 [conn_msg 7 10 20]] new_saver))).
  split; vm_compute; reflexivity.
Qed.
Print Assumptions C25_counted_twice_refuted.

(** ** C26 *)
(** In any history, disciplined or not: after each round a report is made
    exactly if the second of the round is later than all before.  A total is
    observed relative to the sum of all earlier observations, never below and
    never more than [most] above. *)
Theorem C26_reports : forall w cf, fair_order w -> forall bs b, s_dead (loop w cf (bs ++ [b]) new_saver) = false ->
  exists e total, s_log (loop w cf (bs ++ [b]) new_saver) = s_log (loop w cf bs new_saver) ++ e /\
    reports e = expected (s_log (loop w cf bs new_saver)) total (due bs b).
Proof. exact block_reports. Qed.
Print Assumptions C26_reports.

Theorem C26_bounded : forall w cf, fair_order w -> forall bs, s_dead (loop w cf bs new_saver) = false ->
  Forall (fun x => (x <= 12500000000)%N)
    (observed_sent (s_log (loop w cf bs new_saver)) ++ observed_recv (s_log (loop w cf bs new_saver))).
Proof. exact observations_bounded. Qed.
Print Assumptions C26_bounded.

Theorem C26_once_per_second : forall w cf, fair_order w -> forall bs, s_dead (loop w cf bs new_saver) = false ->
  length (observed_sent (s_log (loop w cf bs new_saver))) <= length (remove_dups (map (fun b => unix (V4Time b)) bs)) /\
  length (observed_recv (s_log (loop w cf bs new_saver))) <= length (remove_dups (map (fun b => unix (V4Time b)) bs)).
Proof. exact once_per_second. Qed.
Print Assumptions C26_once_per_second.

Example c26_case :
  let bs := [blk 1 [conn_msg 7 10 20]; mkblock (second + 5) 0 [Some (conn_msg 7 30 20)] []; blk 3 [conn_msg 7 40 20]; blk 2 [conn_msg 7 50 50]] in
  s_dead (loop w0 cf0 bs new_saver) = false /\ reports (s_log (loop w0 cf0 bs new_saver)) = [AObsSent 10; AObsRecv 20; AObsSent 30; AObsRecv 0].
Proof. vm_compute. split; reflexivity. Qed.

(** As long as the total is more than [most] above what has been reported,
    nothing is reported at all. *)
Theorem C26_stuck : forall w cf, fair_order w -> forall bs xs,
  s_dead (loop w cf (bs ++ xs) new_saver) = false -> disciplined (rounds cf (bs ++ xs)) ->
  ((forall ys, ys `prefix_of` xs -> ys <> [] ->
     (sum_N (observed_sent (s_log (loop w cf bs new_saver))) + 12500000000 < (grand_total (rounds cf (bs ++ ys))).1 mod 2 ^ 64)%N) ->
   observed_sent (s_log (loop w cf (bs ++ xs) new_saver)) = observed_sent (s_log (loop w cf bs new_saver))) /\
  ((forall ys, ys `prefix_of` xs -> ys <> [] ->
     (sum_N (observed_recv (s_log (loop w cf bs new_saver))) + 12500000000 < (grand_total (rounds cf (bs ++ ys))).2 mod 2 ^ 64)%N) ->
   observed_recv (s_log (loop w cf (bs ++ xs) new_saver)) = observed_recv (s_log (loop w cf bs new_saver))).
Proof. intros w cf Hw bs xs Hd HD. split; [exact (stuck_sent w cf Hw bs xs Hd HD)|exact (stuck_recv w cf Hw bs xs Hd HD)]. Qed.
Print Assumptions C26_stuck.
Example c26_stuck_case :
  let bs := [blk 1 [conn_msg 7 10 20]] in
  let xs := [blk 2 [conn_msg 7 12500000011 20]; blk 300 [conn_msg 7 12500000012 25]] in
  s_dead (loop w0 cf0 (bs ++ xs) new_saver) = false /\ disciplined (rounds cf0 (bs ++ xs)) /\
  (forall ys, ys `prefix_of` xs -> ys <> [] ->
     (sum_N (observed_sent (s_log (loop w0 cf0 bs new_saver))) + 12500000000 < (grand_total (rounds cf0 (bs ++ ys))).1 mod 2 ^ 64)%N) /\
  reports (s_log (loop w0 cf0 (bs ++ xs) new_saver)) = [AObsSent 10; AObsRecv 20; AErrSent false; AObsRecv 0; AErrSent false; AObsRecv 5].
Proof.
  intros bs xs. split; [vm_compute; reflexivity|]. split; [apply disciplinedb_ok; vm_compute; reflexivity|].
  split; [|vm_compute; reflexivity]. intros ys [zs E] N. destruct ys as [|y1 ys]; [done|].
  injection E as <- E. destruct ys as [|y2 ys]; [vm_compute; reflexivity|]. injection E as <- E.
  symmetry in E. apply app_eq_nil in E as [-> _]. vm_compute. reflexivity.
Qed.
