(** Properties C28, C29, C30: the saver with its marshallers, under every
    schedule. *)
From Coq Require Import Strings.String.
From stdpp Require Import gmap.
From Coq Require Import NArith ZArith Lia.
From Verif Require Import GoBase GoTime Inetdiag Netlink SpecNetlink SpecCompare Cache SpecCache Saver SpecSaver System SpecSystem
  SaverSteps SaverFiles SaverRuns SaverHistory SystemInv SystemFiles SystemRefine SystemEnd SystemHidden Samples P_Compare P_Saver.
Local Open Scope list_scope.

(** ** The case used below: any schedule of 3 marshallers on bs0, channels of
    capacity 1, an anonymizer that clears the last byte of an address and adds
    one to the first (so that doing it twice shows), and lines that are the raw
    header and the file name. *)
Definition anon0 (x : bytes) : bytes :=
  match x with
  | [] => []
  | b :: r => byte_of (Byte.to_N b + 1) :: firstn (length r - 1) r ++ (match r with [] => [] | _ => [x00] end)
  end.
Lemma anon0_len x : length (anon0 x) = length x.
Proof. destruct x as [|b r]; [reflexivity|]. cbn [anon0 length]. rewrite app_length, firstn_length. destruct r; cbn [length]; lia. Qed.
Definition line0 (r : archival) : bytes := header r.
Definition hline0 (m : metadata) : bytes := md_uuid m.
Definition run0 (pick : nat -> list (option nat)) (n : nat) : sys :=
  schedule w0 cf0 1 anon0 line0 hline0 pick n (initial cf0 bs0).
Lemma run0_reachable pick n : reachable w0 cf0 1 anon0 line0 hline0 bs0 (run0 pick n).
Proof. apply schedule_steps. Qed.
(** marshallers first; saver first; by turns *)
Definition eager (_ : nat) : list (option nat) := [Some 0; Some 1; Some 2; None].
Definition lazy_ (_ : nat) : list (option nat) := [None; Some 2; Some 1; Some 0].
Definition turns (n : nat) : list (option nat) := if Nat.even n then eager n else lazy_ n.
Definition finishedb (y : sys) : bool :=
  negb (y_panic y) && (match y_jobs y with [] => true | _ => false end) && Nat.eqb (y_pc y) (length (s_log (y_saver y))) && Nat.eqb (y_wg y) 0 &&
  forallb (fun m => match m_phase m, m_chan m with Finished, [] => m_closed m | _, _ => false end) (y_marsh y).
Example three_schedules : forallb finishedb [run0 eager 400; run0 lazy_ 400; run0 turns 400] = true.
Proof. vm_compute. reflexivity. Qed.
(** They are different executions: after 40 steps the saver has got further in one
    of them; after 20 a record that is still in its cache has been anonymized. *)
Example three_schedules_differ : y_pc (run0 eager 40) <> y_pc (run0 lazy_ 40).
Proof. vm_compute. discriminate. Qed.
Example cached_record_changed : exists c k, prev (s_cache (y_saver (run0 eager 20))) !! k = Some c /\ is_Some (y_heap (run0 eager 20) !! c_uid c).
Proof.
  assert (H : existsb (fun kc => match y_heap (run0 eager 20) !! c_uid kc.2 with Some _ => true | None => false end)
    (map_to_list (prev (s_cache (y_saver (run0 eager 20))))) = true) by (vm_compute; reflexivity).
  apply existsb_exists in H as ([k c] & Hin & H). exists c, k. split; [apply elem_of_map_to_list, elem_of_list_In, Hin|].
  cbn [snd] in H. destruct (y_heap (run0 eager 20) !! c_uid c) as [x|]; [exists x; reflexivity|discriminate H].
Qed.

(** ** C28 *)
Theorem C28_same_decisions : forall w cf cap anon line hline, (forall x, length (anon x) = length x) -> 1 <= nmarsh cf ->
  forall bs, all_comparable cf bs -> forall y, reachable w cf cap anon line hline bs y ->
  y_panic y = false /\ exists e, s_log (message_saver_loop w cf bs) = s_log (y_saver y) ++ e.
Proof.
  intros w cf cap anon line hline Hl Hn bs Hc y Hr. split; [|exact (log_prefix w cf cap anon line hline Hl Hn bs Hc y Hr)].
  destruct (invariants w cf cap anon line hline Hl bs Hn y Hr) as (_ & _ & P & _). exact P.
Qed.
Print Assumptions C28_same_decisions.

(** At every moment a file holds a beginning of what it should. *)
Theorem C28_prefix : forall w cf cap anon line hline, (forall x, length (anon x) = length x) -> 1 <= nmarsh cf ->
  forall bs, all_comparable cf bs -> forall y, reachable w cf cap anon line hline bs y -> forall wr f,
  y_files y !! wr = Some f ->
  ACreate wr (f_path f) ∈ s_log (message_saver_loop w cf bs) /\
  exists rest, contents anon line hline wr (s_log (message_saver_loop w cf bs)) = f_data f ++ rest.
Proof. exact file_prefix. Qed.
Print Assumptions C28_prefix.

Theorem C28_final : forall w cf cap anon line hline, (forall x, length (anon x) = length x) -> 1 <= nmarsh cf ->
  forall bs, all_comparable cf bs -> forall y, reachable w cf cap anon line hline bs y -> finished y ->
  y_saver y = message_saver_loop w cf bs /\
  forall wr, y_files y !! wr = final_file anon line hline wr (s_log (message_saver_loop w cf bs)).
Proof. exact same_end. Qed.
Print Assumptions C28_final.

(** Two schedules, two marshaller speeds, two capacities: the same files. *)
Theorem C28_schedules_agree : forall w cf anon line hline, (forall x, length (anon x) = length x) -> 1 <= nmarsh cf ->
  forall bs, all_comparable cf bs -> forall cap1 cap2 y1 y2,
  reachable w cf cap1 anon line hline bs y1 -> reachable w cf cap2 anon line hline bs y2 -> finished y1 -> finished y2 ->
  y_saver y1 = y_saver y2 /\ y_files y1 = y_files y2.
Proof.
  intros w cf anon line hline Hl Hn bs Hc cap1 cap2 y1 y2 R1 R2 F1 F2.
  destruct (same_end w cf cap1 anon line hline Hl Hn bs Hc y1 R1 F1) as [E1 G1].
  destruct (same_end w cf cap2 anon line hline Hl Hn bs Hc y2 R2 F2) as [E2 G2].
  split; [congruence|]. apply map_eq. intros wr. by rewrite G1, G2.
Qed.
Print Assumptions C28_schedules_agree.

Example c28_case :
  map (fun n => match y_files (run0 turns 400) !! n with Some f => Some (length (f_data f), f_open f) | None => None end) [0; 1; 2] =
  [Some (177, false); Some (104, false); None].
Proof. vm_compute. reflexivity. Qed.
Example c28_unfinished : match y_files (run0 turns 60) !! 0 with Some f => f_open f | None => false end = true.
Proof. vm_compute. reflexivity. Qed.

(** ** C29 *)
Theorem C29_only_anonymized : forall w cf cap anon line hline, (forall x, length (anon x) = length x) -> 1 <= nmarsh cf ->
  forall bs y, reachable w cf cap anon line hline bs y -> forall wr f, y_files y !! wr = Some f ->
  exists md recs rest,
    f_data f ++ rest = (hline md ++ [x0a]) ++ concat (map (fun r => line r ++ [x0a]) recs) /\
    Forall (fun r => exists r0, r0 ∈ concat (map (accepted cf) bs) /\ hidden anon r0 = Some r) recs.
Proof. intros w cf cap anon line hline Hl Hn bs y Hr wr f. exact (only_hidden w cf cap anon line hline Hl Hn bs y wr f Hr). Qed.
Print Assumptions C29_only_anonymized.

(** Where the addresses of a written record come from; no other family. *)
Theorem C29_addresses : forall anon r r', (forall x, length (anon x) = length x) -> hidden anon r = Some r' ->
  (hdr_family (header r) = 10%N /\ at_ 8 16 (header r') = anon (at_ 8 16 (header r)) /\ at_ 24 16 (header r') = anon (at_ 24 16 (header r))) \/
  (hdr_family (header r) = 2%N /\ at_ 8 4 (header r') = anon (at_ 8 4 (header r)) /\ at_ 24 4 (header r') = anon (at_ 24 4 (header r))).
Proof. exact hidden_addresses. Qed.
Print Assumptions C29_addresses.

(** The first line after the file name: the address has been changed once. *)
Example c29_case : match y_files (run0 turns 400) !! 0 with
  | Some f => match hidden anon0 (mkar 0 (Some (firstn 72 (vis (m_data (conn_msg 7 10 20))))) [] None) with
              | Some r => f_data f = hline0 (mkmeta (from_cookie (uuid_prefix w0) 7) 0 0) ++ [x0a] ++ header r ++ [x0a] ++ header r ++ [x0a]
              | None => False end
  | None => False end.
Proof. vm_compute. reflexivity. Qed.

(** ** C30 *)
Theorem C30_terminates : forall w cf cap anon line hline (f : nat -> sys), ~ (forall n, step w cf cap anon line hline (f n) (f (S n))).
Proof. exact no_infinite. Qed.
Print Assumptions C30_terminates.

(** No deadlock: as long as not everything is done, some goroutine can move. *)
Theorem C30_no_deadlock : forall w cf cap anon line hline, (forall x, length (anon x) = length x) -> 1 <= nmarsh cf ->
  forall bs, all_comparable cf bs -> 1 <= cap -> Forall (parses cf) bs -> fair_order w ->
  forall y, reachable w cf cap anon line hline bs y -> finished y \/ exists y', step w cf cap anon line hline y y'.
Proof. exact no_deadlock. Qed.
Print Assumptions C30_no_deadlock.

(** Done.Wait() returns only when everything is done, written and closed. *)
Theorem C30_wait : forall w cf cap anon line hline, (forall x, length (anon x) = length x) -> 1 <= nmarsh cf ->
  forall bs, all_comparable cf bs -> Forall (parses cf) bs -> fair_order w ->
  forall y, reachable w cf cap anon line hline bs y -> y_wg y = 0 ->
  finished y /\ forall wr f, y_files y !! wr = Some f ->
    f_open f = false /\ f_data f = contents anon line hline wr (s_log (message_saver_loop w cf bs)).
Proof. exact wait_complete. Qed.
Print Assumptions C30_wait.

Theorem C30_completes : forall w cf cap anon line hline, (forall x, length (anon x) = length x) -> 1 <= nmarsh cf ->
  forall bs, all_comparable cf bs -> 1 <= cap -> Forall (parses cf) bs -> fair_order w ->
  forall y, reachable w cf cap anon line hline bs y -> exists y', rtc (step w cf cap anon line hline) y y' /\ finished y'.
Proof. intros w cf cap anon line hline Hl Hn bs Hc Hcap Hp Hf y. by apply ends. Qed.
Print Assumptions C30_completes.

Example c30_case : (forall x, length (anon0 x) = length x) /\ 1 <= nmarsh cf0 /\ all_comparable cf0 bs0 /\ Forall (parses cf0) bs0 /\ fair_order w0 /\
  y_wg (run0 eager 400) = 0 /\ y_wg (run0 eager 60) = 4.
Proof.
  split; [exact anon0_len|]. split; [cbn; lia|]. split; [exact (proj2 bs0_ok)|]. split; [exact (proj1 bs0_ok)|]. split; [apply w0_fair|].
  split; vm_compute; reflexivity.
Qed.
