(** C53: the example client never holds up the stream of events. *)
From stdpp Require Import base list relations.
From Coq Require Import ZArith Lia.
From Verif Require Import GoBase Inetdiag EventClient ExampleClient.

(** The call that a line of the log is the answer to. *)
Definition answered (x : xline) : option call :=
  match x with
  | XSent e | XSkipped e => Some (COpen (ev_time e) (ev_uuid e) (ev_id e))
  | XClose t u => Some (CClose t u)
  | _ => None
  end.
Definition handed_over (x : xline) : option event := match x with XSent e => Some e | _ => None end.
Definition processed (x : xline) : option event := match x with XProcessing e => Some e | _ => None end.
Definition in_work (q : xproc) : list event := match q with XBusy e => [e] | _ => [] end.

Definition xinv (calls : list call) (s : xst) : Prop :=
  calls = omap answered (x_log s) ++ x_calls s /\
  omap handed_over (x_log s) = omap processed (x_log s) ++ in_work (x_proc s).

Lemma xinv_ok calls s : xreach calls s -> xinv calls s.
Proof.
  apply (rtc_ind_r (R := xstep) (xinv calls) (x_init calls)); [split; reflexivity|].
  clear s. intros s s' _ H (A1 & A2).
  destruct H as [t u id r Ec Ep|t u id r Ec Ep|t u r Ec|Ep Eca|e Ep| |Eca Ep]; unfold xinv; cbn [x_calls x_log x_proc];
    rewrite ?omap_app; cbn [omap list_omap answered handed_over processed ev_time ev_uuid ev_id]; rewrite ?app_nil_r.
  - rewrite Ec in A1. rewrite Ep in A2. cbn [in_work] in *. rewrite app_nil_r in A2. split; [rewrite <- app_assoc; exact A1 | rewrite A2; reflexivity].
  - rewrite Ec in A1. split; [rewrite <- app_assoc; exact A1 | exact A2].
  - rewrite Ec in A1. split; [rewrite <- app_assoc; exact A1 | exact A2].
  - rewrite Ep in A2. cbn [in_work] in *. rewrite app_nil_r in A2. split; [exact A1 | rewrite ?app_nil_r; exact A2].
  - rewrite Ep in A2. cbn [in_work] in *. split; [exact A1 | rewrite ?app_nil_r; exact A2].
  - split; [exact A1 | exact A2].
  - split; [exact A1|]. destruct Ep as [Ep|Ep]; rewrite Ep in A2; cbn [in_work] in *; rewrite ?app_nil_r in *; exact A2.
Qed.

(** Every call is answered exactly once, in order; the events processed are those
    handed over, in order, the last one possibly still being processed. *)
Theorem C53_accounted calls s : xreach calls s ->
  calls = omap answered (x_log s) ++ x_calls s /\
  omap handed_over (x_log s) = omap processed (x_log s) ++ in_work (x_proc s).
Proof. exact (xinv_ok calls s). Qed.
Print Assumptions C53_accounted.

(** No call waits for the other goroutine: in every state the next call can
    return at once. *)
Theorem C53_never_waits calls s c r : xreach calls s -> x_calls s = c :: r ->
  exists s' x, xstep s s' /\ x_calls s' = r /\ x_log s' = x_log s ++ [x] /\ answered x = Some c.
Proof.
  intros _ E. destruct c as [t u id|t u].
  - destruct (x_proc s) eqn:Ep.
    2: eexists; exists (XSent (mkev t u id)); split; [eapply x_sent; [exact E | exact Ep]|]; split; [reflexivity|]; split; reflexivity.
    all: eexists; exists (XSkipped (mkev t u id)); split; [eapply x_skip; [exact E | left; congruence]|]; split; [reflexivity|]; split; reflexivity.
  - eexists. exists (XClose t u). split; [eapply x_close; exact E|]. split; [reflexivity|]. split; reflexivity.
Qed.
Print Assumptions C53_never_waits.

(** While the context is not cancelled, an event that arrives when the other
    goroutine waits for one is not skipped. *)
Theorem C53_not_skipped calls s s' e : xreach calls s -> x_proc s = XReady -> x_cancelled s = false -> xstep s s' ->
  x_log s' <> x_log s ++ [XSkipped e].
Proof.
  intros _ Hp Hc H E. destruct H; cbn [x_log] in E; try (apply app_inv_head in E; discriminate E).
  - destruct H0; congruence.
  - apply (f_equal length) in E. rewrite app_length in E. cbn in E. lia.
  - apply (f_equal length) in E. rewrite app_length in E. cbn in E. lia.
Qed.
Print Assumptions C53_not_skipped.

(** Events are skipped while one is being processed: not every open event is
    processed, even if the context is never cancelled. *)
Definition two : list call := [COpen 1 [x41] None; COpen 2 [x42] None; CClose 3 [x41]].
Definition two_done : xst :=
  mkx [] XStart false [XSent (mkev 1 [x41] None); XSkipped (mkev 2 [x42] None); XProcessing (mkev 1 [x41] None); XClose 3 [x41]].
Example C53_run : xreach two two_done.
Proof.
  unfold xreach. eapply rtc_l; [apply x_wait; reflexivity|]. cbn.
  eapply rtc_l; [eapply x_sent; reflexivity|]. cbn. eapply rtc_l; [eapply x_skip; [reflexivity | left; discriminate]|]. cbn.
  eapply rtc_l; [apply (x_process _ (mkev 1 [x41] None)); reflexivity|]. cbn. eapply rtc_l; [eapply x_close; reflexivity|]. apply rtc_refl.
Qed.
Theorem C53_all_processed_refuted : ~ (forall calls s e, xreach calls s -> x_calls s = [] -> x_proc s = XStart -> x_cancelled s = false ->
  COpen (ev_time e) (ev_uuid e) (ev_id e) ∈ calls -> XProcessing e ∈ x_log s).
Proof.
  intros H. specialize (H two two_done (mkev 2 [x42] None) C53_run eq_refl eq_refl eq_refl ltac:(right; left)).
  repeat (apply elem_of_cons in H as [H|H]; [discriminate H|]). apply elem_of_nil in H. exact H.
Qed.
Print Assumptions C53_all_processed_refuted.

(** The context, once cancelled, stays so, and then the goroutine can end at once or
    after the event it is working on. *)
Theorem C53_cancelled_for_good calls s s' : xreach calls s -> x_cancelled s = true -> rtc xstep s s' -> x_cancelled s' = true.
Proof.
  intros _ H R. induction R as [s|s s1 s2 S R IH]; [exact H|]. apply IH. destruct S; cbn [x_cancelled]; try exact H; reflexivity.
Qed.
Print Assumptions C53_cancelled_for_good.
Theorem C53_can_end calls s : xreach calls s -> x_cancelled s = true -> exists s' l, rtc xstep s s' /\ x_proc s' = XGone /\
  x_calls s' = x_calls s /\ x_log s' = x_log s ++ l /\ l = match x_proc s with XBusy e => [XProcessing e; XShutdown] | XGone => [] | _ => [XShutdown] end.
Proof.
  intros _ H. destruct s as [cs q c l]. cbn in H. subst c. destruct q as [| |e|]; cbn [x_proc x_calls x_log].
  - eexists _, _. split; [apply rtc_once, x_done; [reflexivity|left; reflexivity]|]. split; [reflexivity|]. split; [reflexivity|]. split; reflexivity.
  - eexists _, _. split; [apply rtc_once, x_done; [reflexivity|right; reflexivity]|]. split; [reflexivity|]. split; [reflexivity|]. split; reflexivity.
  - eexists _, _. split; [eapply rtc_l; [apply (x_process _ e); reflexivity|]; apply rtc_once, x_done; [reflexivity|left; reflexivity]|].
    split; [reflexivity|]. split; [reflexivity|]. cbn [x_log]. rewrite <- app_assoc. split; reflexivity.
  - eexists _, []. split; [apply rtc_refl|]. split; [reflexivity|]. split; [reflexivity|]. split; [symmetry; apply app_nil_r|reflexivity].
Qed.
Print Assumptions C53_can_end.

(** "shutdown" is logged once, when the goroutine ends: only after the cancellation,
    and nothing is handed over or processed after it. *)
Definition after_shutdown (x : xline) : Prop := match x with XSkipped _ | XClose _ _ => True | _ => False end.
Theorem C53_shutdown calls s : xreach calls s ->
  (x_proc s <> XGone /\ XShutdown ∉ x_log s) \/
  (x_proc s = XGone /\ x_cancelled s = true /\ exists l1 l2, x_log s = l1 ++ XShutdown :: l2 /\ XShutdown ∉ l1 /\ Forall after_shutdown l2).
Proof.
  apply (rtc_ind_r (R := xstep) (fun s => (x_proc s <> XGone /\ XShutdown ∉ x_log s) \/
    (x_proc s = XGone /\ x_cancelled s = true /\ exists l1 l2, x_log s = l1 ++ XShutdown :: l2 /\ XShutdown ∉ l1 /\ Forall after_shutdown l2)) (x_init calls)).
  { left. split; [discriminate|]. apply not_elem_of_nil. }
  clear s. intros s s' _ H I.
  assert (K : forall x, x <> XShutdown -> XShutdown ∉ x_log s -> XShutdown ∉ x_log s ++ [x]).
  { intros x Hx Hn E. apply elem_of_app in E as [E|E]; [exact (Hn E)|]. apply elem_of_list_singleton in E. congruence. }
  assert (K2 : forall x l1 l2, x_log s = l1 ++ XShutdown :: l2 -> Forall after_shutdown l2 -> after_shutdown x ->
    x_log s ++ [x] = l1 ++ XShutdown :: (l2 ++ [x]) /\ Forall after_shutdown (l2 ++ [x])).
  { intros x l1 l2 E F A. rewrite E, <- app_assoc. split; [reflexivity|]. apply Forall_app. split; [exact F|]. apply Forall_singleton, A. }
  destruct H as [t u id r Ec Ep|t u id r Ec Ep|t u r Ec|Ep Eca|e Ep| |Eca Ep]; cbn [x_proc x_cancelled x_log];
    destruct I as [[P N]|(P & C & l1 & l2 & E & N & F)]; try congruence.
  - left. split; [discriminate|]. apply K; [discriminate|exact N].
  - left. split; [exact P|]. apply K; [discriminate|exact N].
  - right. split; [exact P|]. split; [exact C|]. destruct (K2 (XSkipped (mkev t u id)) l1 l2 E F I) as [K3 K4]. exists l1, (l2 ++ [XSkipped (mkev t u id)]). split; [exact K3|split; [exact N|exact K4]].
  - left. split; [exact P|]. apply K; [discriminate|exact N].
  - right. split; [exact P|]. split; [exact C|]. destruct (K2 (XClose t u) l1 l2 E F I) as [K3 K4]. exists l1, (l2 ++ [XClose t u]). split; [exact K3|split; [exact N|exact K4]].
  - left. split; [discriminate|exact N].
  - left. split; [discriminate|]. apply K; [discriminate|exact N].
  - left. split; assumption.
  - right. split; [exact P|]. split; [reflexivity|]. exists l1, l2. split; [exact E|split; assumption].
  - right. split; [reflexivity|]. split; [reflexivity|]. exists (x_log s), []. split; [reflexivity|]. split; [exact N|constructor].
  - destruct Ep; congruence.
Qed.
Print Assumptions C53_shutdown.

(** If the goroutine keeps up, every open event is processed; nothing is cancelled. *)
Theorem C53_keeps_up calls : exists s, xreach calls s /\ x_calls s = [] /\ x_cancelled s = false /\
  omap processed (x_log s) = omap (fun c => match c with COpen t u id => Some (mkev t u id) | _ => None end) calls.
Proof.
  assert (K : forall cs l, exists l', rtc xstep (mkx cs XReady false l) (mkx [] XReady false (l ++ l')) /\
    omap processed l' = omap (fun c => match c with COpen t u id => Some (mkev t u id) | _ => None end) cs).
  { induction cs as [|c cs IH]; intros l; [exists []; rewrite app_nil_r; split; [apply rtc_refl|reflexivity]|].
    destruct c as [t u id|t u].
    - destruct (IH (l ++ [XSent (mkev t u id); XProcessing (mkev t u id)])) as (l' & R & E).
      exists (XSent (mkev t u id) :: XProcessing (mkev t u id) :: l'). split; [|cbn; f_equal; exact E].
      eapply rtc_l; [eapply x_sent; reflexivity|]. eapply rtc_l; [apply (x_process _ (mkev t u id)); reflexivity|].
      eapply rtc_l; [apply x_wait; reflexivity|]. cbn. rewrite <- !app_assoc in *. exact R.
    - destruct (IH (l ++ [XClose t u])) as (l' & R & E). exists (XClose t u :: l'). split; [|exact E].
      eapply rtc_l; [eapply x_close; reflexivity|]. cbn. rewrite <- !app_assoc in *. exact R. }
  destruct (K calls []) as (l' & R & E). eexists. split; [eapply rtc_l; [apply x_wait; reflexivity|exact R]|].
  split; [reflexivity|]. split; [reflexivity|exact E].
Qed.
Print Assumptions C53_keeps_up.
