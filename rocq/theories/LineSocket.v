(** The lines that an event client receives are as SpecLine.v says. *)
From Coq Require Import Strings.String.
From stdpp Require Import gmap relations.
From Coq Require Import NArith ZArith Lia.
From Verif Require Import GoBase GoTime Inetdiag Netlink SpecCompare SpecJson SpecArchive Cache Saver SpecSaver SaverReports
  System SpecSystem SystemInv SystemFiles SystemRefine SystemEnd SystemHidden P_System Program SpecProgram ProgramFacts ProgramEvents SpecLine WrittenFacts.
From Verif Require Import EventName EventServer SpecEvents EventFacts P_Events EventClient SpecClient ClientFacts ClientServer P_Client.
From Verif Require Collector.
Local Open Scope list_scope.

(** The line that reports the beginning or the end of a connection *)
Definition report_text (zone : Z -> Z) (r : report) (x : bytes) : Prop :=
  match r with
  | Created t u id => event_line_text zone (mkfe 0 t u (Some id)) x
  | Deleted t u => event_line_text zone (mkfe 1 t u None) x
  end.

Lemma reports_written zone es : Forall (proper_event zone) (map event_of es) ->
  exists xs, Forall2 (report_text zone) es xs /\ map (event_line zone) (map event_of es) = map (fun x => x ++ [x0a]) xs.
Proof.
  intros F. exists (map (fun r => event_text zone (event_of r)) es). split; [|rewrite !map_map; reflexivity].
  induction es as [|r es IH]; constructor; [|apply IH; inversion F; assumption].
  inversion F as [|? ? P _]; subst. destruct (event_text_ok zone _ P) as (M & _). apply event_written in M. destruct r; exact M.
Qed.

Section Socket.
Variables (w : world) (cf : config) (cap : nat) (anon : bytes -> bytes) (line : archival -> bytes) (hline : metadata -> bytes).
Variables (v : Collector.environment) (reps : Z) (zone : Z -> Z).
Hypothesis Hlen : forall x, length (anon x) = length x.
Hypothesis Hn : 1 <= nmarsh cf.
Notation possible := (possible w cf cap anon line hline v reps true (marshal_event zone)).

Lemma socket_lines g c l1 l2 : possible g -> all_comparable cf (g_sent g) -> tellable zone w cf (g_sent g) ->
  log (g_srv g) = l1 ++ OAdd c :: l2 -> ~ has_failed c (log (g_srv g)) ->
  exists before es after rest xs tail,
    reports (uuid_prefix w) (s_log (message_saver_loop w cf (g_sent g))) = before ++ es ++ after ++ rest /\
    length before <= length (submitted l1) /\ length after <= 101 /\ Forall2 (report_text zone) es xs /\
    received c (log (g_srv g)) ++ tail = concat (map (fun x => x ++ [x0a]) xs) /\ (waiting (g_srv g) c = None -> tail = []).
Proof.
  intros Hp Hc Ht El Hf. destruct (decisions w cf cap anon line hline v reps true zone Hlen Hn g Hp Hc) as [rest Er].
  pose proof (server_possible w cf cap anon line hline v reps true _ g Hp eq_refl) as Rs.
  pose proof (submitted_reports w cf cap anon line hline v reps true _ g Hp eq_refl) as Su.
  assert (Fp : Forall (fun e => proper_event zone e /\ brief zone e) (submitted (log (g_srv g)))).
  { rewrite Su. apply Forall_fmap. eapply (sound_proper zone w cf (g_sent g)); [exact Ht|].
    pose proof (run_sound w cf (g_sent g)) as F. rewrite Er in F |- *. apply Forall_app in F. exact (proj1 F). }
  assert (P1 : Forall (proper_event zone) (submitted (log (g_srv g)))) by (eapply Forall_impl; [exact Fp|]; intros e [K _]; exact K).
  destruct (segment zone (g_srv g) l1 c l2 Rs El P1) as (b0 & e0 & a0 & E & Ee & Lb & La).
  pose proof (C43_received (marshal_event zone) (g_srv g) c l1 l2 Rs El Hf) as R.
  rewrite E in P1. rewrite Su in E. apply map_split in E. destruct E as (before & r1 & E1 & Eb & E). apply map_split in E. destruct E as (es & after & -> & Ex & Ea).
  assert (P2 : Forall (proper_event zone) (map event_of es)).
  { rewrite Ex. apply Forall_app in P1 as [_ P1]. apply Forall_app in P1 as [P1 _]. exact P1. }
  destruct (reports_written zone es P2) as (xs & Fx & Lx). rewrite Ex, Ee in Lx.
  exists before, es, after, (reports (uuid_prefix w) rest), xs, (concat (option_list (waiting (g_srv g) c))). split.
  { rewrite Er. unfold reports in E1 |- *. rewrite omap_app, E1, <- !app_assoc. reflexivity. }
  split; [rewrite <- Eb, map_length in Lb; exact Lb|]. rewrite <- Ea, map_length in La. split.
  { destruct (C44_order _ _ Rs) as (_ & _ & _ & B). assert (length (in_hand (np (g_srv g))) <= 1) by (destruct (np (g_srv g)); cbn; lia). lia. }
  split; [exact Fx|]. split; [rewrite R, Lx; reflexivity|]. intros ->. reflexivity.
Qed.
End Socket.
