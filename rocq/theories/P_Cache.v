(** Properties C15, C16: the connection cache. *)
From stdpp Require Import gmap.
From Coq Require Import NArith ZArith.
From Verif Require Import GoBase Netlink SpecNetlink SpecCompare Cache SpecCache CacheFacts Samples.

(** C15: every reply of every history is the one the history calls for. *)
Theorem C15_replies : forall (h : list call) (a : call) (h' : list call),
  exists r, fst (run new_cache (h ++ a :: h')) !! length h = Some r /\ good_reply h a r.
Proof. exact cache_replies. Qed.
Print Assumptions C15_replies.

Theorem C15_refused_record_changes_nothing : forall c m, ~ usable m -> snd (update c m) = c.
Proof. exact cache_error_no_change. Qed.
Print Assumptions C15_refused_record_changes_nothing.

(** C16: nothing is lost or duplicated. *)
Theorem C16_conservation : forall h, once_per_round h ->
  given h ≡ₚ handed_back (fst (run new_cache h)) ++ held (snd (run new_cache h)).
Proof. exact conservation. Qed.
Print Assumptions C16_conservation.

Theorem C16_cycle_count : forall h, cycle_count (snd (run new_cache h)) = Z.of_nat (completed h).
Proof. exact cycle_count_spec. Qed.
Print Assumptions C16_cycle_count.

Definition cell_of (uid : nat) (k : N) : cell :=
  mkcell uid (mkar 0 (Some (sample_hdr 2 1 443 5000 (v4 10 0 0 1) (v4 192 0 2 7) k)) [] None).
Definition h_demo : list call :=
  [CUpdate (cell_of 0 7); CUpdate (cell_of 1 8); CEndCycle; CUpdate (cell_of 2 7); CUpdate (cell_of 3 9); CEndCycle].
Example h_demo_ok : once_per_round h_demo.
Proof. unfold once_per_round. apply (bool_decide_unpack _). vm_compute. exact I. Qed.
Example h_demo_replies : exists m, fst (run new_cache h_demo) =
  [RRecord None; RRecord None; RResidual ∅; RRecord (Some (cell_of 0 7)); RRecord None; RResidual m]
  /\ map_to_list m = [(8%N, cell_of 1 8)].
Proof. eexists. split; vm_compute; reflexivity. Qed.

(** The discipline is needed: a cookie seen twice in one round loses the first
    record. *)
Theorem C16_conservation_refuted : exists h,
  ~ (given h ≡ₚ handed_back (fst (run new_cache h)) ++ held (snd (run new_cache h))).
Proof.
  exists [CUpdate (cell_of 0 7); CUpdate (cell_of 1 7)]. intros H.
  apply Permutation_length in H. vm_compute in H. discriminate.
Qed.
Print Assumptions C16_conservation_refuted.
