(** C40, C41, C42: the collector. *)
From stdpp Require Import base list.
From Coq Require Import NArith ZArith Lia Bool.
From Verif Require Import GoBase GoBaseFacts Inetdiag Tcp Netlink Samples Saver Collector SpecCollector CollectorFacts.

(** ** C40: a dump is the messages before its end *)

(** For every sequence of replies, OneType returns exactly what [dump] says:
    the multi-part messages of the request before the first reply that is not
    one, plus that reply itself when it is a message without NLM_F_MULTI. *)
Theorem C40_result so seq family pid l res err :
  (family < 256)%N -> opened so (dump_request seq family) pid -> replies (so_receive so) l ->
  one_type so seq family = Ret (res, err) <-> dump seq pid l res err.
Proof. exact (one_type_result so seq family pid l res err). Qed.
Print Assumptions C40_result.

(** It waits forever exactly if no such reply ever comes. *)
Theorem C40_blocks so seq family pid l :
  (family < 256)%N -> opened so (dump_request seq family) pid -> replies (so_receive so) l ->
  one_type so seq family = Diverge <-> exists ms, l = map Message ms /\ Forall (part seq pid) ms.
Proof. exact (one_type_blocks so seq family pid l). Qed.
Print Assumptions C40_blocks.

(** The error is nil exactly if the dump was ended by NLMSG_DONE, by an
    acknowledgement, or by a message that is not multi-part. *)
Theorem C40_error_iff so seq family pid before x after res err :
  (family < 256)%N -> opened so (dump_request seq family) pid ->
  replies (so_receive so) (map Message before ++ x :: after) ->
  Forall (part seq pid) before -> (forall m, x = Message m -> ~ part seq pid m) ->
  one_type so seq family = Ret (res, err) ->
  err <> None <->
  match x with
  | ReceiveFails _ => True
  | Message m =>
      h_seq (m_header m) <> seq \/ h_pid (m_header m) <> pid
      \/ h_type (m_header m) = 2%N /\ length (vis (m_data m)) < 4
  end.
Proof.
  intros Hf Ho Hl Hb Hx E. apply (one_type_result _ _ _ _ _ _ _ Hf Ho Hl) in E.
  destruct E as [before' x' after' E Hb' He].
  assert (Sx : stops seq pid x) by (destruct x; [exact (Hx _ eq_refl) | exact I]).
  destruct (split_unique _ _ _ _ _ _ _ _ E Hb Hb' Sx (ends_stops _ _ _ _ _ _ He)) as (<- & <-).
  destruct He as [e|m Hs|m Hs Hp|m Hs Hp Ht|m Hs Hp Ht Hc|m Hs Hp Ht Hn|m a b c d Hs Hp Ht Hc Hz Hg|m Hs Hp Ht Ht' Hg].
  - split; [intros _; exact I | intros _ X; discriminate X].
  - split; [intros _; left; exact Hs | intros _ X; discriminate X].
  - split; [intros _; right; left; exact Hp | intros _ X; discriminate X].
  - split; [contradiction|]. intros [X|[X|(X & _)]]; [contradiction|contradiction|]. rewrite Ht in X. discriminate X.
  - split; [contradiction|]. intros [X|[X|(_ & X)]]; [contradiction|contradiction|].
    destruct Hc as (r & Hr). rewrite Hr in X. cbn in X. lia.
  - split; [intros _; right; right; split; assumption | intros _ X; discriminate X].
  - split; [contradiction|]. intros [X|[X|(_ & X)]]; [contradiction|contradiction|].
    destruct Hc as (r & Hr). rewrite Hr in X. cbn in X. lia.
  - split; [contradiction|]. intros [X|[X|(X & _)]]; contradiction.
Qed.
Print Assumptions C40_error_iff.

(** A socket that cannot be opened, a request that cannot be sent or an unknown
    port: the error and no messages. *)
Theorem C40_not_opened so seq family e :
  (family < 256)%N ->
  so_subscribe so = Some e
  \/ so_subscribe so = None /\ so_send so (dump_request seq family) = Some e
  \/ so_subscribe so = None /\ so_send so (dump_request seq family) = None /\ so_pid so = Fail e ->
  one_type so seq family = Ret ([], Some e).
Proof. exact (one_type_unopened so seq family e). Qed.
Print Assumptions C40_not_opened.

(** A refusal by the kernel (NLMSG_ERROR with a non-zero code, here -EPERM as
    the only reply) is not an error for OneType: it comes back as a message. *)
Definition eperm : nlmsg := mkmsg (mkhdr 36 2 0 7 99) (mkslice [xff; xff; xff; xff; x48; x00; x00; x00] []).
Definition answer (rs : list (outcome (list nlmsg))) : socket := mksocket None (fun _ => None) (Ret 99%N) rs.
Theorem C40_kernel_error_refuted :
  ~ (forall so seq family m res err,
       one_type so seq family = Ret (res, err) -> so_receive so = [Ret [m]] -> h_type (m_header m) = 2%N ->
       le (firstn 4 (vis (m_data m))) <> 0%N -> err <> None).
Proof.
  intros H. refine (H (answer [Ret [eperm]]) 7%N 2%N eperm [eperm] None _ eq_refl eq_refl _ eq_refl).
  - vm_compute. reflexivity.
  - vm_compute. discriminate.
Qed.
Print Assumptions C40_kernel_error_refuted.

(** Two batches, the second ended by NLMSG_DONE; a bad sequence number keeps the
    messages before it. *)
Definition mp (seq : N) (k : N) : nlmsg := mkmsg (mkhdr 88 20 2 seq 99) (m_data (bare_msg k)).
Definition done_msg : nlmsg := mkmsg (mkhdr 20 3 2 7 99) (mkslice [x00; x00; x00; x00] []).
Example C40_two_batches :
  one_type (answer [Ret [mp 7 1; mp 7 2]; Ret [mp 7 3; done_msg; mp 7 4]]) 7 10 = Ret ([mp 7 1; mp 7 2; mp 7 3], None).
Proof. vm_compute. reflexivity. Qed.
Example C40_bad_sequence :
  one_type (answer [Ret [mp 7 1; mp 8 2]; Ret [done_msg]]) 7 10 = Ret ([mp 7 1], Some ErrBadSequence).
Proof. vm_compute. reflexivity. Qed.
Example C40_hypotheses :
  opened (answer [Ret [mp 7 1; mp 7 2]; Ret [mp 7 3; done_msg]]) (dump_request 7 10) 99
  /\ replies [Ret [mp 7 1; mp 7 2]; Ret [mp 7 3; done_msg]] [Message (mp 7 1); Message (mp 7 2); Message (mp 7 3); Message done_msg]
  /\ Forall (part 7 99) [mp 7 1; mp 7 2; mp 7 3]
  /\ ends 7 99 [mp 7 1; mp 7 2; mp 7 3] (Message done_msg) [mp 7 1; mp 7 2; mp 7 3] None.
Proof.
  split; [repeat split|]. split.
  { apply (rp_batch [mp 7 1; mp 7 2] _ [Message (mp 7 3); Message done_msg]).
    apply (rp_batch [mp 7 3; done_msg] _ []). constructor. }
  split; [repeat constructor; cbn; discriminate|]. apply end_done; reflexivity.
Qed.

(** ** C41: one block per iteration *)

(** At any moment, the blocks Run has sent are those of the iterations 0, 1, 2,
    ... up to some point, every one of them due (within the repetitions, not
    cancelled); if Run has returned it returned (0, 0), and the next iteration
    was not due. *)
Theorem C41_sends v reps fuel :
  exists bs, (forall i b, bs !! i = Some b -> due v reps i /\ block_of v i b)
    /\ sent (fst (run v reps fuel)) = bs
    /\ (snd (run v reps fuel) = None \/ snd (run v reps fuel) = Some (0, 0)%Z /\ ~ due v reps (length bs)).
Proof. exact (run_shape v reps fuel 0). Qed.
Print Assumptions C41_sends.

(** As long as iterations are due and their dumps return, it goes on: after
    these iterations exactly their blocks have been sent. *)
Theorem C41_goes_on v reps bs :
  (forall i b, bs !! i = Some b -> due v reps i /\ block_of v i b) ->
  sent (fst (run v reps (length bs))) = bs /\ snd (run v reps (length bs)) = None.
Proof.
  intros H. destruct (run_blocks v reps 0 bs H) as (A & B & _).
  rewrite Nat.add_0_r in A, B. rewrite A, B. cbn. rewrite app_nil_r. split; reflexivity.
Qed.
Print Assumptions C41_goes_on.

(** Once an iteration is not due, Run has returned (0, 0) after having sent
    exactly the blocks before it. *)
Theorem C41_returns v reps bs more :
  (forall i b, bs !! i = Some b -> due v reps i /\ block_of v i b) -> ~ due v reps (length bs) ->
  sent (fst (run v reps (length bs + S more))) = bs /\ snd (run v reps (length bs + S more)) = Some (0, 0)%Z.
Proof.
  intros H Hn. destruct (run_blocks v reps (S more) bs H) as (A & B & _).
  rewrite A, B, (run_stop _ _ _ _ Hn). cbn. rewrite app_nil_r. split; reflexivity.
Qed.
Print Assumptions C41_returns.

(** Without cancellation and with dumps that return: exactly [reps] blocks if
    reps > 0, none if reps < 0. *)
Theorem C41_repetitions v reps bs more :
  (forall i, v_cancelled v i = false) -> (forall i b, bs !! i = Some b -> block_of v i b) ->
  (0 < reps)%Z -> Z.of_nat (length bs) = reps ->
  sent (fst (run v reps (length bs + S more))) = bs /\ snd (run v reps (length bs + S more)) = Some (0, 0)%Z.
Proof.
  intros Hc Hb Hr Hl. apply C41_returns.
  - intros i b E. split; [|exact (Hb i b E)]. split; [|apply Hc]. right. apply lookup_lt_Some in E. lia.
  - intros ([X|X] & _); lia.
Qed.
Print Assumptions C41_repetitions.

Theorem C41_negative v reps more :
  (reps < 0)%Z -> run v reps (S more) = ([], Some (0, 0)%Z).
Proof. intros H. apply run_stop. intros ([X|X] & _); lia. Qed.
Print Assumptions C41_negative.

(** A cancelled context stops it whatever [reps] is. *)
Theorem C41_cancelled v reps bs n more :
  (forall i b, bs !! i = Some b -> due v reps i /\ block_of v i b) -> length bs = n -> v_cancelled v n = true ->
  sent (fst (run v reps (n + S more))) = bs /\ snd (run v reps (n + S more)) = Some (0, 0)%Z.
Proof.
  intros H <- Hc. apply C41_returns; [exact H|]. intros (_ & X). rewrite Hc in X. discriminate X.
Qed.
Print Assumptions C41_cancelled.

(** LogCacheStats is called in iterations 0, 6000, 12000, ... and is always told
    that there were no local connections and no errors. *)
Theorem C41_log v reps bs :
  (forall i b, bs !! i = Some b -> due v reps i /\ block_of v i b) ->
  logged (fst (run v reps (length bs)))
  = map (fun _ => (0, 0)%Z) (List.filter (fun n => Z.of_nat n mod 6000 =? 0)%Z (List.seq 0 (length bs))).
Proof.
  intros H. destruct (run_blocks v reps 0 bs H) as (_ & _ & C).
  rewrite Nat.add_0_r in C. rewrite C. cbn. apply app_nil_r.
Qed.
Print Assumptions C41_log.

(** A failed dump gives the same block as one that found no connections. *)
Theorem C41_failed_dump v v' n b b' ms e :
  one_type (v_socket v n 10) (v_seq v n 10) 10 = Ret (ms, Some e) ->
  one_type (v_socket v' n 10) (v_seq v' n 10) 10 = Ret ([], None) ->
  one_type (v_socket v n 2) (v_seq v n 2) 2 = one_type (v_socket v' n 2) (v_seq v' n 2) 2 ->
  v_clock v n 10 = v_clock v' n 10 -> v_clock v n 2 = v_clock v' n 2 ->
  block_of v n b -> block_of v' n b' -> b = b'.
Proof.
  intros E E' E4 T6 T4 (ms6 & e6 & ms4 & e4 & A6 & A4 & F6 & F4 & U6 & U4) (ms6' & e6' & ms4' & e4' & B6 & B4 & G6 & G4 & W6 & W4).
  rewrite E in A6. injection A6 as <- <-. rewrite E' in B6. injection B6 as <- <-.
  rewrite E4, B4 in A4. injection A4 as <- <-.
  destruct b as [t4 t6 m4 m6], b' as [t4' t6' m4' m6']. cbn [V4Time V6Time V4Messages V6Messages] in *.
  assert (D : forall l o x y, family_of l o x -> family_of l o y -> x = y) by (intros l o x y [] X; inversion X; reflexivity).
  rewrite T6 in U6. rewrite T4 in U4. rewrite (D _ _ _ _ F4 G4), U4, W4, U6, W6. f_equal. inversion F6; inversion G6. reflexivity.
Qed.
Print Assumptions C41_failed_dump.

(** Every message of every block is there (no nil message reaches the saver). *)
Theorem C41_no_nil v n b m : block_of v n b -> m ∈ V4Messages b ++ V6Messages b -> m <> None.
Proof.
  intros (ms6 & e6 & ms4 & e4 & _ & _ & F6 & F4 & _) Hm X. subst m.
  assert (D : forall l o x, family_of l o x -> None ∉ x).
  { intros l o x [ms|ms e] Hx; [|inversion Hx]. apply elem_of_list_fmap in Hx as (y & Y & _). discriminate Y. }
  apply elem_of_app in Hm as [Hm|Hm]; [exact (D _ _ _ F4 Hm) | exact (D _ _ _ F6 Hm)].
Qed.
Print Assumptions C41_no_nil.

(** Three iterations; in the second the IPv6 dump fails. *)
Definition env3 (cancel : nat -> bool) : environment :=
  mkenv (fun n f => if (Nat.eqb n 1 && N.eqb f 10)%bool then answer [Fail ErrIO]
                    else answer [Ret [mp 7 (N.of_nat n + f); done_msg]])
        (fun _ _ => 7%N) (fun n f => (Z.of_nat n * 10 + Z.of_N f)%Z) cancel.
Definition block3 (n : nat) : block :=
  mkblock (Z.of_nat n * 10 + 2) (Z.of_nat n * 10 + 10) [Some (mp 7 (N.of_nat n + 2))]
    (if Nat.eqb n 1 then [] else [Some (mp 7 (N.of_nat n + 10))]).
Example C41_three : run (env3 (fun _ => false)) 3 5
  = ([ESend (block3 0); ELog 0 0; ESend (block3 1); ESend (block3 2)], Some (0, 0)%Z).
Proof. vm_compute. reflexivity. Qed.
Example C41_stopped : run (env3 (fun n => Nat.eqb n 2)) 0 5
  = ([ESend (block3 0); ELog 0 0; ESend (block3 1)], Some (0, 0)%Z).
Proof. vm_compute. reflexivity. Qed.
Example C41_hypotheses i b :
  [block3 0; block3 1; block3 2] !! i = Some b -> due (env3 (fun _ => false)) 3 i /\ block_of (env3 (fun _ => false)) i b.
Proof.
  intros H. destruct i as [|[|[|i]]]; [| | |discriminate H]; injection H as <-.
  - split; [split; [right|]; reflexivity|].
    eexists _, _, _, _. split; [vm_compute; reflexivity|]. split; [vm_compute; reflexivity|].
    split; [constructor|]. split; [constructor|]. split; reflexivity.
  - split; [split; [right|]; reflexivity|].
    eexists _, _, _, _. split; [vm_compute; reflexivity|]. split; [vm_compute; reflexivity|].
    split; [constructor|]. split; [constructor|]. split; reflexivity.
  - split; [split; [right|]; reflexivity|].
    eexists _, _, _, _. split; [vm_compute; reflexivity|]. split; [vm_compute; reflexivity|].
    split; [constructor|]. split; [constructor|]. split; reflexivity.
Qed.

(** ** C42: the request *)

(** What is sent for a family, byte by byte. *)
Theorem C42_bytes seq family : (family < 256)%N -> serialize_request (make_req seq family) = dump_request seq family.
Proof. exact (request_bytes seq family). Qed.
Print Assumptions C42_bytes.

(** At the kernel's offsets: the family, TCP, all eight extensions from
    INET_DIAG_MEMINFO (bit 0) to INET_DIAG_SHUTDOWN (bit 7), every state from 0 to
    11 except SYN_RECV (3), TIME_WAIT (6) and CLOSE (7), and nothing else. *)
Theorem C42_request seq family :
  (family < 256)%N ->
  let b := serialize_request (make_req seq family) in
  length b = 72 /\ le (sub 0 4 b) = 72%N /\ le (sub 4 2 b) = 20%N /\ le (sub 6 2 b) = N.lor 1 768
  /\ le (sub 16 1 b) = family /\ le (sub 17 1 b) = 6%N
  /\ (forall i, N.testbit (le (sub 18 1 b)) i = true <-> (i < 8)%N)
  /\ (forall s, N.testbit (le (sub 20 4 b)) s = true <-> (s <= 11)%N /\ s <> 3%N /\ s <> 6%N /\ s <> 7%N)
  /\ sub 24 48 b = repeat x00 48.
Proof.
  intros Hf. cbn zeta. rewrite (request_bytes _ _ Hf). unfold dump_request.
  assert (Hb : bval (byte_of family) = family) by (rewrite bval_byte_of; apply N.mod_small; exact Hf).
  assert (Hl : exists a b c d, le_enc 4 seq = [a; b; c; d]) by (eexists _, _, _, _; reflexivity).
  destruct Hl as (a & b & c & d & ->). revert Hb. generalize (byte_of family). intros f Hb.
  repeat split; try reflexivity.
  - cbn. lia.
  - intros H. apply ext_mask. exact H.
  - intros H. apply ext_mask in H. exact H.
  - apply (states_mask s). exact H.
  - apply (states_mask s). exact H.
  - apply (states_mask s). exact H.
  - apply (states_mask s). exact H.
  - intros H. apply (states_mask s) in H. exact H.
Qed.
Print Assumptions C42_request.

(** Different requests have different bytes. *)
Theorem C42_injective r r' :
  length (rq_id r) = 48 -> length (rq_id r') = 48 ->
  (rq_family r < 256)%N -> (rq_protocol r < 256)%N -> (rq_ext r < 256)%N -> (rq_pad r < 256)%N -> (rq_states r < 4294967296)%N ->
  (rq_family r' < 256)%N -> (rq_protocol r' < 256)%N -> (rq_ext r' < 256)%N -> (rq_pad r' < 256)%N -> (rq_states r' < 4294967296)%N ->
  serialize_reqv2 r = serialize_reqv2 r' -> r = r'.
Proof. exact (serialize_injective r r'). Qed.
Print Assumptions C42_injective.

(** What NewReqV2 makes for any family, protocol and states: those three, no
    extension and no socket. *)
Theorem C42_new family protocol states :
  (family < 256)%N -> (protocol < 256)%N -> (states < 4294967296)%N ->
  serialize_reqv2 (new_reqv2 family protocol states)
  = [byte_of family; byte_of protocol; x00; x00] ++ le_enc 4 states ++ repeat x00 48.
Proof.
  intros Hf Hp Hs. unfold new_reqv2, serialize_reqv2. cbn [rq_family rq_protocol rq_ext rq_pad rq_states rq_id].
  rewrite !N.mod_small by assumption. reflexivity.
Qed.
Print Assumptions C42_new.

Example c42_new : serialize_reqv2 (new_reqv2 10 132 2) = [x0a; x84; x00; x00; x02; x00; x00; x00] ++ repeat x00 48.
Proof. vm_compute. reflexivity. Qed.

(** Serialize has the length Len announces, for every request. *)
Theorem C42_length r : length (rq_id r) = 48 -> length (serialize_reqv2 r) = 56 /\ len_reqv2 = 56.
Proof. intros H. unfold serialize_reqv2. rewrite !app_length, !le_enc_length, H. split; reflexivity. Qed.
Print Assumptions C42_length.

Example C42_v4 : serialize_request (make_req 1 2)
  = [x48; x00; x00; x00; x14; x00; x01; x03; x01; x00; x00; x00; x00; x00; x00; x00; x02; x06; xff; x00; x37; x0f; x00; x00]
    ++ repeat x00 48.
Proof. vm_compute. reflexivity. Qed.
