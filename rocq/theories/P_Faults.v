(** Property C68: compressors that fail, and compressors that hang. *)
From Coq Require Import Strings.String.
From stdpp Require Import gmap.
From Coq Require Import NArith ZArith Lia.
From Verif Require Import GoBase GoTime Inetdiag Netlink SpecNetlink SpecCompare Cache SpecCache Saver SpecSaver System SpecSystem
  SaverSteps SaverFiles SaverRuns SaverHistory SystemInv SystemFiles SystemRefine SystemEnd SystemHidden Faults SpecFaults FaultFacts
  Samples P_Compare P_Saver P_System.
Local Open Scope list_scope.

(** ** The case used below: the blocks and the schedules of P_System.v *)
Definition frun (cap : nat) (cf : config) (fate_of : nat -> fate) (pick : nat -> list (option nat)) (n : nat) : sys :=
  fschedule w0 cf cap anon0 line0 hline0 fate_of pick n (initial cf bs0).
Lemma frun_reachable cap cf fate_of pick n : freachable w0 cf cap anon0 line0 hline0 fate_of bs0 (frun cap cf fate_of pick n).
Proof. apply fschedule_steps. Qed.
(** The compressor of the first file dies after 40 bytes. *)
Definition fate_dies (wr : nat) : fate := match wr with O => Fails 40 | _ => Healthy end.
(** The compressor of the first file takes 50 bytes and then nothing. *)
Definition fate_hangs (wr : nat) : fate := match wr with O => Hangs 50 | _ => Healthy end.
(** ... takes 5 bytes, not even a header. *)
Definition fate_header (wr : nat) : fate := match wr with O => Hangs 5 | _ => Healthy end.
Definition sizes (y : sys) : list (option (nat * bool)) :=
  map (fun n => match y_files y !! n with Some f => Some (length (f_data f), f_open f) | None => None end) [0; 1; 2].
Definition stuckb (cap : nat) (cf : config) (fate_of : nat -> fate) (y : sys) : bool :=
  forallb (fun who => match fmove w0 cf cap anon0 line0 hline0 fate_of who y with None => true | Some _ => false end) (None :: map Some (seq 0 (length (y_marsh y)))).
Definition cf1 : config := mkconfig 1 None.

(** ** Whatever the compressors do *)
(** The saver decides the same; nothing panics. *)
Theorem C68_same_decisions : forall w cf cap anon line hline fate_of, (forall x, length (anon x) = length x) -> 1 <= nmarsh cf ->
  forall bs, all_comparable cf bs -> forall y, freachable w cf cap anon line hline fate_of bs y ->
  y_panic y = false /\ exists e, s_log (message_saver_loop w cf bs) = s_log (y_saver y) ++ e.
Proof.
  intros w cf cap anon line hline fate_of Hl Hn bs Hc y Hr. apply sims in Hr as (y0 & R & ->).
  exact (C28_same_decisions w cf cap anon line hline Hl Hn bs Hc y0 R).
Qed.
Print Assumptions C68_same_decisions.

(** At every moment every file holds a beginning of what it should, and no more
    than its compressor lets through. *)
Theorem C68_prefix : forall w cf cap anon line hline fate_of, (forall x, length (anon x) = length x) -> 1 <= nmarsh cf ->
  forall bs, all_comparable cf bs -> forall y, freachable w cf cap anon line hline fate_of bs y ->
  forall wr f, y_files y !! wr = Some f ->
  ACreate wr (f_path f) ∈ s_log (message_saver_loop w cf bs) /\
  (exists rest, contents anon line hline wr (s_log (message_saver_loop w cf bs)) = f_data f ++ rest) /\
  (forall n, fate_of wr = Fails n -> length (f_data f) <= n).
Proof. intros w cf cap anon line hline fate_of Hl Hn bs Hc. exact (fault_prefix w cf cap anon line hline fate_of Hl Hn bs Hc). Qed.
Print Assumptions C68_prefix.

(** Every execution ends, if only by getting stuck. *)
Theorem C68_terminates : forall w cf cap anon line hline fate_of bs (f : nat -> sys),
  freachable w cf cap anon line hline fate_of bs (f 0) -> ~ (forall n, fstep w cf cap anon line hline fate_of (f n) (f (S n))).
Proof. exact no_infinite_faults. Qed.
Print Assumptions C68_terminates.

(** When everything is done a failed compressor has damaged its own file only. *)
Theorem C68_final : forall w cf cap anon line hline fate_of, (forall x, length (anon x) = length x) -> 1 <= nmarsh cf ->
  forall bs, all_comparable cf bs -> forall y, freachable w cf cap anon line hline fate_of bs y -> finished y ->
  y_saver y = message_saver_loop w cf bs /\
  forall wr, y_files y !! wr = on_disk (fate_of wr) (final_file anon line hline wr (s_log (message_saver_loop w cf bs))).
Proof. intros w cf cap anon line hline fate_of Hl Hn bs Hc. exact (fault_final w cf cap anon line hline fate_of Hl Hn bs Hc). Qed.
Print Assumptions C68_final.

(** Done.Wait() returns only when everything is done; then no file that was
    created had a compressor that hangs, and all are closed. *)
Theorem C68_wait : forall w cf cap anon line hline fate_of, (forall x, length (anon x) = length x) -> 1 <= nmarsh cf ->
  forall bs, all_comparable cf bs -> Forall (parses cf) bs -> fair_order w ->
  forall y, freachable w cf cap anon line hline fate_of bs y -> y_wg y = 0 ->
  finished y /\ forall wr f, y_files y !! wr = Some f ->
    f_open f = false /\ hangs (fate_of wr) = false /\
    f_data f = arrives (fate_of wr) (contents anon line hline wr (s_log (message_saver_loop w cf bs))).
Proof.
  intros w cf cap anon line hline fate_of Hl Hn bs Hc Hp Hf y Hr Hw.
  pose proof (fault_wait w cf cap anon line hline fate_of Hl Hn bs y Hr Hw) as F. split; [exact F|].
  exact (fault_closed w cf cap anon line hline fate_of Hl Hn bs Hc Hp Hf y Hr F).
Qed.
Print Assumptions C68_wait.

(** ** Compressors that fail but do not hang *)
Theorem C68_no_deadlock : forall w cf cap anon line hline fate_of, (forall x, length (anon x) = length x) -> 1 <= nmarsh cf ->
  forall bs, all_comparable cf bs -> 1 <= cap -> Forall (parses cf) bs -> fair_order w -> (forall wr, hangs (fate_of wr) = false) ->
  forall y, freachable w cf cap anon line hline fate_of bs y -> finished y \/ exists y', fstep w cf cap anon line hline fate_of y y'.
Proof.
  intros w cf cap anon line hline fate_of Hl Hn bs Hc Hcap Hp Hf Hh y. exact (fault_no_deadlock w cf cap anon line hline fate_of Hl Hn bs Hc Hp Hf y Hcap Hh).
Qed.
Print Assumptions C68_no_deadlock.

Theorem C68_completes : forall w cf cap anon line hline fate_of, (forall x, length (anon x) = length x) -> 1 <= nmarsh cf ->
  forall bs, all_comparable cf bs -> 1 <= cap -> Forall (parses cf) bs -> fair_order w -> (forall wr, hangs (fate_of wr) = false) ->
  forall y, freachable w cf cap anon line hline fate_of bs y ->
  exists y', rtc (fstep w cf cap anon line hline fate_of) y y' /\ finished y'.
Proof.
  intros w cf cap anon line hline fate_of Hl Hn bs Hc Hcap Hp Hf Hh y. exact (fault_completes w cf cap anon line hline fate_of Hl Hn bs Hc Hp Hf y Hcap Hh).
Qed.
Print Assumptions C68_completes.

Example c68_dies : (forall wr, hangs (fate_dies wr) = false) /\ finishedb (frun 1 cf0 fate_dies turns 400) = true /\
  sizes (frun 1 cf0 fate_dies turns 400) = [Some (40, false); Some (104, false); None] /\
  sizes (frun 1 cf0 (fun _ => Healthy) turns 400) = [Some (177, false); Some (104, false); None].
Proof. split; [by intros [|n]|]. vm_compute. repeat split. Qed.

(** ** Compressors that hang *)
(** Where everybody is when nothing can move and not all is done: some goroutine
    is inside a Write or Close of a hanging compressor; every marshaller that is
    not has done all it was given; the saver has sent all it has to, or waits for
    a marshaller that is held up, or is held up in a header. *)
Theorem C68_stuck : forall w cf cap anon line hline fate_of, (forall x, length (anon x) = length x) -> 1 <= nmarsh cf ->
  forall bs, all_comparable cf bs -> 1 <= cap -> Forall (parses cf) bs -> fair_order w ->
  forall y, freachable w cf cap anon line hline fate_of bs y -> stuck (fstep w cf cap anon line hline fate_of) y -> ~ finished y ->
  (forall q m, y_marsh y !! q = Some m -> held_up fate_of y m \/ at_rest m) /\
  ((y_jobs y = [] /\ y_pc y = length (s_log (y_saver y)) /\ exists q m, y_marsh y !! q = Some m /\ held_up fate_of y m) \/
   saver_held_up fate_of hline cap y).
Proof.
  intros w cf cap anon line hline fate_of Hl Hn bs Hc Hcap Hp Hf y. exact (stuck_state w cf cap anon line hline fate_of Hl Hn bs Hc Hp Hf y Hcap).
Qed.
Print Assumptions C68_stuck.

(** Marshallers that are not held up have finished the files they were told to
    close. *)
Theorem C68_others_complete : forall w cf cap anon line hline fate_of, (forall x, length (anon x) = length x) -> 1 <= nmarsh cf ->
  forall bs, all_comparable cf bs -> 1 <= cap -> Forall (parses cf) bs -> fair_order w ->
  forall y, freachable w cf cap anon line hline fate_of bs y -> forall q m, y_marsh y !! q = Some m -> at_rest m ->
  forall wr, ASend q None wr ∈ firstn (y_pc y) (s_log (y_saver y)) ->
  y_files y !! wr = on_disk (fate_of wr) (final_file anon line hline wr (s_log (message_saver_loop w cf bs))).
Proof.
  intros w cf cap anon line hline fate_of Hl Hn bs Hc Hcap Hp Hf y. exact (rest_complete w cf cap anon line hline fate_of Hl Hn bs Hc Hp Hf y Hcap).
Qed.
Print Assumptions C68_others_complete.

(** A marshaller that is held up never gets on, and Done.Wait() never returns. *)
Theorem C68_hang_forever : forall w cf cap anon line hline fate_of, (forall x, length (anon x) = length x) -> 1 <= nmarsh cf ->
  forall bs y, freachable w cf cap anon line hline fate_of bs y -> forall q m, y_marsh y !! q = Some m -> held_up fate_of y m ->
  forall y', rtc (fstep w cf cap anon line hline fate_of) y y' ->
  (exists m', y_marsh y' !! q = Some m' /\ m_phase m' = m_phase m /\ held_up fate_of y' m') /\ y_wg y' <> 0.
Proof.
  intros w cf cap anon line hline fate_of Hl Hn bs y Hr q m M H y'. exact (held_forever w cf cap anon line hline fate_of Hl Hn bs y y' q m Hr M H).
Qed.
Print Assumptions C68_hang_forever.

(** Three marshallers and room in the channels: the file of another marshaller is
    complete.  With channels of capacity 1 the saver is held up too, and that file
    is never closed. *)
Example c68_hangs : stuckb 9 cf0 fate_hangs (frun 9 cf0 fate_hangs turns 400) = true /\ y_wg (frun 9 cf0 fate_hangs turns 400) = 1 /\
  y_jobs (frun 9 cf0 fate_hangs turns 400) = [] /\
  sizes (frun 9 cf0 fate_hangs turns 400) = [Some (31, true); Some (104, false); None] /\
  map (fun m => match m_phase m with Finished => 0 | Rendered _ _ wr => S wr | _ => 99 end) (y_marsh (frun 9 cf0 fate_hangs turns 400)) = [0; 1; 0].
Proof. vm_compute. repeat split. Qed.
Example c68_full : stuckb 1 cf0 fate_hangs (frun 1 cf0 fate_hangs turns 400) = true /\ y_wg (frun 1 cf0 fate_hangs turns 400) = 4 /\
  sizes (frun 1 cf0 fate_hangs turns 400) = [Some (31, true); Some (104, true); None] /\
  match s_log (y_saver (frun 1 cf0 fate_hangs turns 400)) !! y_pc (frun 1 cf0 fate_hangs turns 400) with Some (ASend q _ _) => q = 1 | _ => False end.
Proof. vm_compute. repeat split. Qed.
(** The saver itself, in a header. *)
Example c68_header : stuckb 1 cf0 fate_header (frun 1 cf0 fate_header turns 400) = true /\
  sizes (frun 1 cf0 fate_header turns 400) = [Some (0, true); None; None].
Proof. vm_compute. repeat split. Qed.

(** With one compressor that hangs other connections lose data too: it is not so
    that a file is complete in the end if its own compressor is healthy. *)
Theorem C68_hang_is_local_refuted : exists w cf cap anon line hline fate_of bs y,
  (forall x, length (anon x) = length x) /\ 1 <= nmarsh cf /\ all_comparable cf bs /\ 1 <= cap /\ Forall (parses cf) bs /\ fair_order w /\
  (forall wr, wr <> 0 -> fate_of wr = Healthy) /\
  freachable w cf cap anon line hline fate_of bs y /\ stuck (fstep w cf cap anon line hline fate_of) y /\
  y_files y !! 1 <> final_file anon line hline 1 (s_log (message_saver_loop w cf bs)).
Proof.
  exists w0, cf1, 1, anon0, line0, hline0, fate_hangs, bs0, (frun 1 cf1 fate_hangs turns 400).
  split; [exact anon0_len|]. split; [cbn; lia|]. split; [exact (proj2 bs0_ok)|]. split; [lia|]. split; [exact (proj1 bs0_ok)|]. split; [apply w0_fair|].
  split; [by intros [|n]|]. split; [apply frun_reachable|]. split; [apply stuckb_stuck; vm_compute; reflexivity|]. vm_compute. discriminate.
Qed.
Print Assumptions C68_hang_is_local_refuted.
