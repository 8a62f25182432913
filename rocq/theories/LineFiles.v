(** The lines of the files are as SpecLine.v says. *)
From Coq Require Import Strings.String.
From stdpp Require Import gmap.
From Coq Require Import NArith ZArith Lia.
From Verif Require Import GoBase GoTime Netlink SpecJson Archive SpecArchive ArchiveFacts SpecCompare Cache Saver SpecSaver SpecSystem
  System SystemViews SystemJobs SystemInv SystemFiles SystemRefine SystemEnd SystemHidden SpecRecovered RecoveredFacts SpecLine WrittenFacts.
Local Open Scope list_scope.

Section Files.
Variables (w : world) (cf : config) (cap : nat) (anon : bytes -> bytes) (zone : Z -> Z).
Hypothesis Hlen : forall x, length (anon x) = length x.
Hypothesis Hn : 1 <= nmarsh cf.
Variable bs : list block.
Hypothesis Hc : all_comparable cf bs.
Hypothesis Ht : Forall (writable_time zone) (zero_time :: block_times bs).
Hypothesis Hu : utf8 (uuid_prefix w).
Hypothesis Hb : (Z.of_nat (length (log_of w cf bs)) <= 9223372036854775807)%Z.
Notation reachable := (reachable w cf cap anon (json_line zone) (header_line zone) bs).

Lemma lines_written rs : Forall (good_record zone) rs -> Forall2 (record_text zone) rs (map (json_line zone) rs).
Proof.
  induction 1 as [|r rs [W P] _ IH]; constructor; [|exact IH]. destruct (round_trip zone r W P) as (b & M & _).
  unfold json_line. rewrite M. apply record_written, M.
Qed.
Lemma file_lines y wr f : 1 <= cap -> Forall (parses cf) bs -> fair_order w -> reachable y -> y_files y !! wr = Some f ->
  exists md, AHeader wr md ∈ log_of w cf bs /\ exists xs rest,
    Forall2 (record_text zone) (mkar zero_time None [] (Some md) :: omap (hidden anon) (queued (file_actions wr (log_of w cf bs)))) xs /\
    f_data f ++ rest = concat (map (fun x => x ++ [x0a]) xs) /\ (y_wg y = 0 -> rest = []).
Proof.
  intros Hcap Hp Hf Hr Ef.
  destruct (file_prefix w cf cap anon _ _ Hlen Hn bs Hc y Hr wr f Ef) as [Cr [rest2 Epre]].
  change (s_log (message_saver_loop w cf bs)) with (log_of w cf bs) in *.
  destruct (ends w cf cap anon (json_line zone) (header_line zone) Hlen Hn bs Hc Hp Hf y Hcap Hr) as (y' & Hy' & Fin).
  assert (Hr' : reachable y') by (eapply rtc_transitive; [exact Hr|exact Hy']).
  destruct (same_end w cf cap anon _ _ Hlen Hn bs Hc y' Hr' Fin) as [Es _].
  destruct (full_contents w cf cap anon zone Hlen Hn bs Ht Hu Hb y' wr Hr' Es) as (md & Hmd & Hcon & Hgood).
  { intros K. assert (In (ACreate wr (f_path f)) (file_actions wr (log_of w cf bs))) as K2; [|rewrite K in K2; destruct K2].
    apply List.filter_In. split; [by apply elem_of_list_In|]. cbn. by rewrite Nat.eqb_refl. }
  exists md. split; [exact Hmd|]. exists (map (json_line zone) (mkar zero_time None [] (Some md) :: omap (hidden anon) (queued (file_actions wr (log_of w cf bs))))), rest2.
  split; [apply lines_written, Hgood|]. split.
  - rewrite <- Epre, Hcon, map_map. reflexivity.
  - intros Hw. destruct (wait_complete w cf cap anon _ _ Hlen Hn bs Hc Hp Hf y Hr Hw) as [_ H]. destruct (H wr f Ef) as [_ Ed].
    change (s_log (message_saver_loop w cf bs)) with (log_of w cf bs) in *. rewrite <- Ed in Epre.
    rewrite <- (app_nil_r (f_data f)) in Epre at 1. by apply app_inv_head in Epre.
Qed.
End Files.
