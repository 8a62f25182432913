(** C46: the names of states and events. *)
From Coq Require Import Strings.String List NArith ZArith Bool Lia.
From Verif Require Import GoBase GoBaseFacts Tcp EventName.
Import ListNotations.
Local Open Scope string_scope.
Local Open Scope list_scope.
Local Open Scope Z_scope.

(** The names in the kernel's include/net/tcp_states.h, by number. *)
Definition kernel_states : list string :=
  ["INVALID"; "ESTABLISHED"; "SYN_SENT"; "SYN_RECV"; "FIN_WAIT1"; "FIN_WAIT2"; "TIME_WAIT"; "CLOSE"; "CLOSE_WAIT";
   "LAST_ACK"; "LISTEN"; "CLOSING"].

Lemma state_cases x : 0 <= x <= 11 \/ state_string x = str "UNKNOWN_STATE_" ++ decZ x.
Proof.
  destruct (Z_le_dec 0 x) as [H0|H0]; [destruct (Z_le_dec x 11) as [H1|H1]; [left; lia|]|];
    right; unfold state_string, stateName; cbn [find fst].
  - repeat (rewrite (proj2 (Z.eqb_neq _ _)) by lia). reflexivity.
  - repeat (rewrite (proj2 (Z.eqb_neq _ _)) by lia). reflexivity.
Qed.

Lemma known_cases (P : Z -> Prop) : P 0 -> P 1 -> P 2 -> P 3 -> P 4 -> P 5 -> P 6 -> P 7 -> P 8 -> P 9 -> P 10 -> P 11 ->
  forall x, 0 <= x <= 11 -> P x.
Proof.
  intros. assert (x = 0 \/ x = 1 \/ x = 2 \/ x = 3 \/ x = 4 \/ x = 5 \/ x = 6 \/ x = 7 \/ x = 8 \/ x = 9 \/ x = 10 \/ x = 11) as G by lia.
  repeat (destruct G as [-> | G]; [assumption|]). subst x. assumption.
Qed.

(** A state the kernel knows has its name. *)
Theorem C46_known x : 0 <= x <= 11 -> Some (state_string x) = option_map str (nth_error kernel_states (Z.to_nat x)).
Proof. revert x. apply known_cases; reflexivity. Qed.
Print Assumptions C46_known.

(** The exported constants are the states of those names. *)
Theorem C46_constants :
  map state_string [INVALID; ESTABLISHED; SYN_SENT; SYN_RECV; FIN_WAIT1; FIN_WAIT2; TIME_WAIT; CLOSE; CLOSE_WAIT;
                    LAST_ACK; LISTEN; CLOSING]
  = map str kernel_states
  /\ forall s, N.testbit AllFlags s = true <-> exists x, In x [INVALID; ESTABLISHED; SYN_SENT; SYN_RECV; FIN_WAIT1;
       FIN_WAIT2; TIME_WAIT; CLOSE; CLOSE_WAIT; LAST_ACK; LISTEN; CLOSING] /\ s = Z.to_N x.
Proof.
  split; [reflexivity|]. intros s. split.
  - intros H. destruct (N.lt_ge_cases s 12) as [L|L].
    + exists (Z.of_N s). split; [|rewrite N2Z.id; reflexivity].
      assert (0 <= Z.of_N s <= 11) as G by lia. revert G. generalize (Z.of_N s).
      apply known_cases; cbn; tauto.
    + change AllFlags with (N.ones 12) in H. rewrite N.ones_spec_high in H by exact L. discriminate H.
  - intros (x & I & ->). cbn in I. repeat (destruct I as [<-|I]; [reflexivity|]). destruct I.
Qed.
Print Assumptions C46_constants.

(** Any other number is shown as such. *)
Theorem C46_unknown x : x < 0 \/ 11 < x -> state_string x = str "UNKNOWN_STATE_" ++ decZ x.
Proof. intros H. destruct (state_cases x) as [G|G]; [lia | exact G]. Qed.
Print Assumptions C46_unknown.

(** Different states have different names. *)
Theorem C46_state_injective x y : state_string x = state_string y -> x = y.
Proof.
  destruct (state_cases x) as [Hx|Hx], (state_cases y) as [Hy|Hy].
  - revert x Hx. apply (known_cases (fun x => _ -> x = y)); revert y Hy; apply (known_cases (fun y => _ -> _ = y));
      intros E; try reflexivity; vm_compute in E; discriminate E.
  - rewrite Hy. clear Hy. revert x Hx. apply (known_cases (fun x => _ -> x = y)); intros E; vm_compute in E; discriminate E.
  - rewrite Hx. clear Hx. revert y Hy. apply (known_cases (fun y => _ -> x = y)); intros E; vm_compute in E; discriminate E.
  - rewrite Hx, Hy. intros E. apply app_inv_head in E. exact (decZ_inj _ _ E).
Qed.
Print Assumptions C46_state_injective.

Lemma event_cases x : x = 0 \/ x = 1 \/ event_string x = Ret (str "TCPEvent(" ++ decZ x ++ str ")").
Proof.
  destruct (Z.eq_dec x 0) as [|H0]; [left; assumption|]. destruct (Z.eq_dec x 1) as [|H1]; [right; left; assumption|].
  right; right. unfold event_string. change (Z.of_nat (length TCPEvent_index) - 1) with 2.
  assert ((x <? 0) || (x >=? 2) = true) as -> by lia. reflexivity.
Qed.

Theorem C46_events : event_string Open = Ret (str "Open") /\ event_string Close = Ret (str "Close")
  /\ forall x, x <> Open -> x <> Close -> event_string x = Ret (str "TCPEvent(" ++ decZ x ++ str ")").
Proof.
  split; [reflexivity|]. split; [reflexivity|]. intros x H0 H1.
  destruct (event_cases x) as [E|[E|E]]; [contradiction|contradiction|exact E].
Qed.
Print Assumptions C46_events.

Theorem C46_event_injective x y : event_string x = event_string y -> x = y.
Proof.
  destruct (event_cases x) as [-> |[-> |Hx]], (event_cases y) as [-> |[-> |Hy]]; intros E;
    try reflexivity; try (vm_compute in E; discriminate E).
  - rewrite Hy in E. vm_compute in E. discriminate E.
  - rewrite Hy in E. vm_compute in E. discriminate E.
  - rewrite Hx in E. vm_compute in E. discriminate E.
  - rewrite Hx in E. vm_compute in E. discriminate E.
  - rewrite Hx, Hy in E. injection E as E. apply app_inv_tail in E. exact (decZ_inj _ _ E).
Qed.
Print Assumptions C46_event_injective.

Example C46_values : map state_string [10; 12; -1] = map str ["LISTEN"; "UNKNOWN_STATE_12"; "UNKNOWN_STATE_-1"]
  /\ map event_string [1; 2; -7] = map (fun s => Ret (str s)) ["Close"; "TCPEvent(2)"; "TCPEvent(-7)"].
Proof. vm_compute. split; reflexivity. Qed.
