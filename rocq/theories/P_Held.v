(** C61: what the saver holds on to. *)
From Coq Require Import Strings.String.
From stdpp Require Import gmap.
From Coq Require Import NArith ZArith Lia.
From Verif Require Import GoBase GoTime Netlink SpecNetlink SpecCompare Cache SpecCache Saver SpecSaver SpecTotals SpecHeld
  SaverSteps SaverFiles SaverRuns SaverHeld Samples P_Saver P_Totals.
Local Open Scope list_scope.

(** In every environment, crashed or not, at every moment between two blocks and
    after the end: a connection has at most one file that is not to be closed. *)
Theorem C61_one_each : forall w cf bs l, l = s_log (loop w cf bs new_saver) \/ l = s_log (message_saver_loop w cf bs) ->
  NoDup (held l) /\
  (forall wr, wr ∈ held l -> exists k, (k < two64)%N /\ k <> 0%N /\ file_of (uuid_prefix w) k wr l) /\
  forall k wr wr', (k < two64)%N -> wr ∈ held l -> wr' ∈ held l ->
    file_of (uuid_prefix w) k wr l -> file_of (uuid_prefix w) k wr' l -> wr = wr'.
Proof. intros w cf bs l [->| ->]; apply (one_each w cf); [apply loop_steps|apply message_saver_loop_steps]. Qed.
Print Assumptions C61_one_each.

(** After each block, if files can be created, the open files are exactly one for
    each connection of that block: none is left of connections that are gone. *)
Theorem C61_files : forall w cf, io_ok w -> 1 <= nmarsh cf -> fair_order w -> forall bs,
  s_dead (loop w cf bs new_saver) = false ->
  let l := s_log (loop w cf bs new_saver) in
  length (held l) = length (connections (last_accepted cf bs)) /\
  forall k, (k < two64)%N -> ((exists wr, wr ∈ held l /\ file_of (uuid_prefix w) k wr l) <-> k ∈ connections (last_accepted cf bs)).
Proof. exact held_last. Qed.
Print Assumptions C61_files.

(** So are the entries of Connections. *)
Theorem C61_connections : forall w cf, io_ok w -> 1 <= nmarsh cf -> fair_order w -> forall bs,
  s_dead (loop w cf bs new_saver) = false ->
  forall k, is_Some (s_conns (loop w cf bs new_saver) !! k) <-> k ∈ connections (last_accepted cf bs).
Proof. exact conns_last. Qed.
Print Assumptions C61_connections.

(** The entries of ClosingStats are of connections of the last block, if TCP_INFO once
    gone does not come back. *)
Theorem C61_closing : forall w cf bs, fair_order w -> s_dead (loop w cf bs new_saver) = false -> disciplined (rounds cf bs) ->
  forall k, is_Some (s_closing (loop w cf bs new_saver) !! k) -> exists r, r ∈ last_accepted cf bs /\ rec_cookie r = k /\ bare r.
Proof. intros w cf. exact (closing_last w cf). Qed.
Print Assumptions C61_closing.

(** In the end nothing is open. *)
Theorem C61_end : forall w cf bs, 1 <= nmarsh cf -> fair_order w -> s_dead (loop w cf bs new_saver) = false ->
  held (s_log (message_saver_loop w cf bs)) = [].
Proof.
  intros w cf bs Hm Hf Hd. destruct (held (s_log (message_saver_loop w cf bs))) as [|wr r] eqn:E; [reflexivity|]. exfalso.
  assert (H : wr ∈ held (s_log (message_saver_loop w cf bs))) by (rewrite E; by left). clear E. unfold held in H.
  apply elem_of_list_filter in H as [H1 H2]. apply creations_in in H2 as (p & H2). apply H1. apply closings_in.
  apply (actions_in wr) in H2; [|cbn; apply Nat.eqb_refl].
  destruct (C20_closed_once w cf bs wr Hm Hf Hd) as [E|(q & k & md & recs & path & E & _)]; rewrite E in H2.
  - by apply elem_of_nil in H2.
  - exists q. apply (actions_in wr); [cbn; apply Nat.eqb_refl|]. rewrite E. unfold written. rewrite !elem_of_app. right. right. by left.
Qed.
Print Assumptions C61_end.

Example c61_case :
  map (fun n => (length (held (s_log (loop w0 cf0 (take n bs0) new_saver))), connections (last_accepted cf0 (take n bs0)))) [1; 2; 3; 4]
  = [(1, [7%N]); (1, [7%N]); (2, [7%N; 8%N]); (1, [8%N])].
Proof. vm_compute. reflexivity. Qed.
Example c61_closing_case : exists bs, disciplined (rounds cf0 bs) /\ s_dead (loop w0 cf0 bs new_saver) = false /\
  s_closing (loop w0 cf0 bs new_saver) !! 7%N = Some (10, 20)%N.
Proof.
  exists [blk 1 [conn_msg 7 10 20]; blk 2 [bare_msg 7]]. split; [|split; vm_compute; reflexivity].
  change (rounds cf0 [blk 1 [conn_msg 7 10 20]; blk 2 [bare_msg 7]]) with [accepted cf0 (blk 2 [bare_msg 7]); accepted cf0 (blk 1 [conn_msg 7 10 20])].
  assert (E1 : exists o, accepted cf0 (blk 1 [conn_msg 7 10 20]) = [o] /\ byte_counts o = Some (10, 20)%N /\ length (ar_attrs o) = 3)
    by (eexists; split; [vm_compute; reflexivity|split; vm_compute; reflexivity]).
  assert (E2 : exists r, accepted cf0 (blk 2 [bare_msg 7]) = [r] /\ length (ar_attrs r) = 1)
    by (eexists; split; [vm_compute; reflexivity|vm_compute; reflexivity]).
  destruct E1 as (o & -> & Bo & Lo), E2 as (r & -> & Lr). cbn [disciplined]. repeat split; try apply NoDup_singleton.
  - apply Forall_singleton. right. unfold bare. lia.
  - intros o' r' Ho Hr _ B. apply elem_of_list_singleton in Ho as ->. unfold bare in B. lia.
  - apply Forall_singleton. left. rewrite Bo. by eexists.
Qed.

(** Without these conditions entries stay behind: a connection whose file could not
    be created is kept in Connections for ever, *)
Theorem C61_failed_creation_refuted : exists w cf bs, 1 <= nmarsh cf /\ fair_order w /\
  s_dead (loop w cf bs new_saver) = false /\ last_accepted cf bs = [] /\ is_Some (s_conns (loop w cf bs new_saver) !! 7%N).
Proof.
  exists w_failing, cf0, [blk 1 [conn_msg 7 10 20]; blk 2 []; blk 3 []]. split; [cbn; lia|]. split; [apply w0_fair|].
  split; [vm_compute; reflexivity|]. split; [reflexivity|]. vm_compute. by eexists.
Qed.
Print Assumptions C61_failed_creation_refuted.
(** and one whose TCP_INFO comes back is kept in ClosingStats for ever. *)
Theorem C61_closing_refuted : exists w cf bs, io_ok w /\ 1 <= nmarsh cf /\ fair_order w /\
  s_dead (loop w cf bs new_saver) = false /\ last_accepted cf bs = [] /\ s_closing (loop w cf bs new_saver) !! 7%N = Some (10, 20)%N.
Proof.
  exists w0, cf0, [blk 1 [conn_msg 7 10 20]; blk 2 [bare_msg 7]; blk 3 [conn_msg 7 10 20]; blk 4 []; blk 5 []].
  split; [apply w0_io|]. split; [cbn; lia|]. split; [apply w0_fair|]. split; [vm_compute; reflexivity|]. split; vm_compute; reflexivity.
Qed.
Print Assumptions C61_closing_refuted.
