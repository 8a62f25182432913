(** Property C66: the functions with which tests set the counters of a record. *)
From Coq Require Import Strings.String List NArith ZArith Arith Lia.
From Verif Require Import GoBase Inetdiag Netlink SpecNetlink SpecCompare SpecCounters CompareFacts SetCounters SetCountersFacts Samples P_Compare.
Import ListNotations.

(** Outside of tests they panic, whatever the record. *)
Theorem C66_not_in_production : forall pm x, set_bytes_received false pm x = Panic /\ set_bytes_sent false pm x = Panic.
Proof. intros pm x. split; apply set_outside. Qed.
Print Assumptions C66_not_in_production.

(** The eight bytes of the counter get the new value, the old one is returned, and
    nothing else changes: no other byte of TCP_INFO, nothing beyond its end, no other
    attribute, no other field. *)
Theorem C66_received : forall pm x i, slot 2 pm = Some i -> 136 <= length i -> (x < 2 ^ 64)%N -> exists r,
  set_bytes_received true pm x = Ret (le (at_ 128 8 i), r) /\ changed_only 128 x pm r.
Proof. intros pm x i H L Hx. exact (set_changes 128 pm x i H L Hx). Qed.
Print Assumptions C66_received.

Theorem C66_sent : forall pm x i, slot 2 pm = Some i -> 208 <= length i -> (x < 2 ^ 64)%N -> exists r,
  set_bytes_sent true pm x = Ret (le (at_ 200 8 i), r) /\ changed_only 200 x pm r.
Proof. intros pm x i H L Hx. exact (set_changes 200 pm x i H L Hx). Qed.
Print Assumptions C66_sent.

(** Without a whole field they return 0 and change nothing. *)
Theorem C66_nothing_to_set : forall pm x,
  ((forall i, slot 2 pm = Some i -> length i < 136) -> set_bytes_received true pm x = Ret (0%N, pm)) /\
  ((forall i, slot 2 pm = Some i -> length i < 208) -> set_bytes_sent true pm x = Ret (0%N, pm)).
Proof. intros pm x. split; intros H; [exact (set_none 128 pm x H)|exact (set_none 200 pm x H)]. Qed.
Print Assumptions C66_nothing_to_set.

(** GetStats shows what was set. *)
Theorem C66_get_stats : forall pm x i, slot 2 pm = Some i -> 208 <= length i -> (x < 2 ^ 64)%N ->
  (exists r, set_bytes_received true pm x = Ret (snd (get_stats pm), r) /\ get_stats r = (fst (get_stats pm), x)) /\
  (exists r, set_bytes_sent true pm x = Ret (fst (get_stats pm), r) /\ get_stats r = (x, snd (get_stats pm))).
Proof. intros pm x i H L Hx. split; [exact (received_then_stats pm x i H L Hx)|exact (sent_then_stats pm x i H L Hx)]. Qed.
Print Assumptions C66_get_stats.

(** Compare sees another number of received bytes, and never another number of sent
    bytes: a test cannot make the saver write a record by SetBytesSent. *)
Theorem C66_compare : forall pm x p r, carries_info pm -> (x < 2 ^ 64)%N ->
  (set_bytes_received true pm x = Ret (p, r) ->
   compare r (Some pm) = Ret (if (x =? p)%N then NoMajorChange else StateOrCounterChange)) /\
  (set_bytes_sent true pm x = Ret (p, r) -> compare r (Some pm) = Ret NoMajorChange).
Proof.
  intros pm x p r C Hx.
  assert (comparable pm) as C'.
  { destruct C as (C1 & i & Hi & L). split; [exact C1|]. intros j Hj. rewrite Hi in Hj. injection Hj as <-. exact L. }
  split; intros E; [exact (received_seen pm x p r C' Hx E C)|exact (sent_unseen pm x p r C' Hx E C)].
Qed.
Print Assumptions C66_compare.

Example set_ex : exists r r', set_bytes_received true r1 77 = Ret (2000%N, r) /\ set_bytes_sent true r 78 = Ret (1000%N, r') /\
  get_stats r1 = (1000%N, 2000%N) /\ get_stats r' = (78%N, 77%N) /\
  compare r (Some r1) = Ret StateOrCounterChange /\ compare r' (Some r) = Ret NoMajorChange.
Proof. eexists. eexists. split; [vm_compute; reflexivity|]. split; [vm_compute; reflexivity|]. vm_compute. repeat split. Qed.
Example set_ex_hyps : carries_info r1 /\ exists i, slot 2 r1 = Some i /\ 208 <= length i.
Proof. split; [apply r_carries; cbn; auto|]. eexists. split; [reflexivity|]. vm_compute. repeat constructor. Qed.
