(** From the saver to the handler of an event client. *)
From Coq Require Import Strings.String.
From stdpp Require Import gmap relations.
From Coq Require Import NArith ZArith Lia.
From Verif Require Import GoBase GoBaseFacts GoTime Inetdiag Netlink SpecNetlink SpecCompare RecordFacts CompareFacts SpecConfig SpecAddrText
  SpecJson SpecArchive Cache Saver SpecSaver SaverSteps SpecRecovered RecoveredFacts SaverReports SaverFiles
  System SpecSystem SystemInv SystemFiles SystemRefine SystemEnd SystemHidden P_System P_Text Program SpecProgram ProgramFacts.
From Verif Require Import EventName EventServer SpecEvents EventFacts P_Events EventClient SpecClient ClientFacts ClientServer P_Client.
From Verif Require Reader SpecReader Collector.
Local Open Scope list_scope.

(** ** Truthful reports *)
Lemma sound_truthful w prefix rs ts l : fair_order w -> Forall (sound w rs ts) l -> Forall (truthful prefix rs ts) (reports prefix l).
Proof.
  intros Hfair. induction 1 as [|a l S _ IH]; [constructor|]. unfold reports in *. destruct a; cbn [omap list_omap]; try exact IH.
  - constructor; [|exact IH]. destruct S as (r & Hr & Et & Ek & m & P & Ei). exists r. split; [exact Hr|]. split; [exact Et|]. split; [by rewrite Ek|].
    pose proof P as P'. apply parse_idm_ret in P. destruct P as (b & E & L & Em). unfold header. rewrite E in P' |- *.
    destruct (sockid_fields b L) as (m' & P1 & F1 & F2 & F3 & F4 & F5). assert (m' = m) by congruence. subst m'. cbn zeta in *.
    destruct (C49_address_text b m P') as (A1 & A2). rewrite Ei. split; [exact F1|]. split; [exact F2|]. split; [exact F3|]. split; [exact A1|]. split; [exact A2|].
    unfold cookie_uint64, of_int64 in F4. rewrite <- F4, Z2N.id; [reflexivity|]. apply Z.mod_pos_bound. lia.
  - constructor; [|exact IH]. destruct S as [St Sk]. split; [exact St|]. destruct (Sk Hfair) as (r & Hr & ->). by exists r.
Qed.

Lemma sound_proper zone w cf bs l : tellable zone w cf bs -> Forall (sound w (concat (map (accepted cf) bs)) (readings (s_log (message_saver_loop w cf bs)))) l ->
  Forall (fun r => proper_event zone (event_of r) /\ brief zone (event_of r)) (reports (uuid_prefix w) l).
Proof.
  intros (T1 & T2 & T3 & T4). 
  assert (U : forall k, utf8 (from_cookie (uuid_prefix w) k) /\ (N.of_nat (length (from_cookie (uuid_prefix w) k)) <= 10000)%N).
  { intros k. split; [by apply from_cookie_utf8|]. unfold from_cookie. rewrite !app_length, hex16_length. cbn [length]. lia. }
  induction 1 as [|a l S _ IH]; [constructor|]. unfold reports in *. destruct a; cbn [omap list_omap]; try exact IH.
  - constructor; [|exact IH]. destruct S as (r & Hr & -> & _ & m & P & ->). destruct (U k) as [U1 U2].
    pose proof P as P'. apply parse_idm_ret in P'. destruct P' as (b & E & _ & _). rewrite E in P.
    apply (C45_created zone _ _ b); try assumption. destruct (all_accepted_shape cf bs r Hr) as [Ht _]. by eapply Forall_forall in Ht; [|exact T2].
  - constructor; [|exact IH]. destruct (U k) as [U1 U2]. apply C45_deleted; [|exact U1|exact U2]. destruct S as [S _]. by eapply Forall_forall in S; [|exact T1].
Qed.

(** ** The calls about one connection *)
Lemma about_app u a b : about u (a ++ b) = about u a ++ about u b.
Proof. apply omap_app. Qed.
Lemma about_events w rs ts k l : fair_order w -> (k < 18446744073709551616)%N -> Forall (sound w rs ts) l ->
  about (from_cookie (uuid_prefix w) k) (map told (reports (uuid_prefix w) l)) = events k l.
Proof.
  intros Hf Hk. induction 1 as [|a l S _ IH]; [reflexivity|]. unfold reports, events, about in *. destruct a; cbn [omap list_omap map]; try exact IH.
  - destruct S as (r & _ & _ & Ek & _). cbn [told]. rewrite IH. destruct (N.eqb_spec k0 k) as [->|N]; [by rewrite bytes_eqb_refl|].
    destruct (bytes_eqb _ _) eqn:E; [|reflexivity]. apply bytes_eqb_eq in E. destruct N. eapply from_cookie_inj; [|exact Hk|exact E]. rewrite Ek. apply hdr_cookie_lt.
  - destruct S as [_ S]. destruct (S Hf) as (r & _ & Ek). cbn [told]. rewrite IH. destruct (N.eqb_spec k0 k) as [->|N]; [by rewrite bytes_eqb_refl|].
    destruct (bytes_eqb _ _) eqn:E; [|reflexivity]. apply bytes_eqb_eq in E. destruct N. eapply from_cookie_inj; [|exact Hk|exact E]. rewrite Ek. apply hdr_cookie_lt.
Qed.
Lemma alternating_segment a b c : alternating true (a ++ b ++ c) -> (exists x, alternating x b) /\ (a = [] -> alternating true b).
Proof.
  assert (H : forall x a b c, alternating x (a ++ b ++ c) -> exists y, alternating y b).
  { clear. intros x a. revert x. induction a as [|z a IH]; cbn; intros x b c.
    - intros H. exists x. revert x H. induction b as [|y b IH]; cbn; [done|]. intros x [-> H]. split; [done|]. by apply IH.
    - intros [_ H]. by eapply IH. }
  intros X. split; [by eapply H|]. intros ->. cbn in X. revert X. clear. generalize true. induction b as [|y b IH]; cbn; [done|]. intros x [-> X]. split; [done|]. by apply IH.
Qed.

Section Handler.
Variables (w : world) (cf : config) (cap : nat) (anon : bytes -> bytes) (line : archival -> bytes) (hline : metadata -> bytes).
Variables (v : Collector.environment) (reps : Z) (on : bool) (zone : Z -> Z).
Hypothesis Hlen : forall x, length (anon x) = length x.
Hypothesis Hn : 1 <= nmarsh cf.
Notation possible := (possible w cf cap anon line hline v reps on (marshal_event zone)).

(** The saver's decisions so far, in any schedule *)
Lemma decisions g : possible g -> all_comparable cf (g_sent g) ->
  exists rest, s_log (message_saver_loop w cf (g_sent g)) = executed (g_sys g) ++ rest.
Proof.
  intros Hp Hc. pose proof (full_reachable w cf cap anon line hline v reps on _ g Hp) as R.
  destruct (C28_same_decisions w cf cap anon line hline Hlen Hn (g_sent g) Hc _ R) as (_ & e & E).
  destruct (full_saver g) as (Es & _). rewrite Es in E. destruct (executed_log (g_sys g)) as [e' E'].
  exists (e' ++ e). by rewrite E, E', app_assoc.
Qed.

Lemma concat_told es css : Forall2 handled (map event_of es) css -> concat css = map told es.
Proof.
  revert css. induction es as [|e es IH]; intros css H; inversion H as [|? c ? ? Hc Hs]; subst; [reflexivity|]. cbn [concat map].
  rewrite (IH _ Hs). destruct e; cbn in Hc; inversion Hc; subst; try reflexivity; (exfalso; unfold EventName.Open, EventName.Close in *; congruence).
Qed.

Lemma handler g c l1 l2 i : on = true -> possible g -> all_comparable cf (g_sent g) -> tellable zone w cf (g_sent g) ->
  log (g_srv g) = l1 ++ OAdd c :: l2 -> ~ has_failed c (log (g_srv g)) -> waiting (g_srv g) c = None ->
  SpecReader.solid i -> quiet (Reader.in_err i) -> SpecReader.contents i = received c (log (g_srv g)) ->
  exists before es after rest,
    reports (uuid_prefix w) (executed (g_sys g)) = before ++ es ++ after /\
    reports (uuid_prefix w) (s_log (message_saver_loop w cf (g_sent g))) = before ++ es ++ after ++ rest /\
    length before <= length (submitted l1) /\ length after = length (in_hand (np (g_srv g))) + length (buf (g_srv g)) /\ length after <= 101 /\
    must_run (Ret i) = Ret (map told es, Returned).
Proof.
  intros Hon Hp Hc Ht El Hf Hw Hs Hq Hi.
  destruct (decisions g Hp Hc) as [rest Er].
  pose proof (server_possible w cf cap anon line hline v reps on _ g Hp Hon) as Rs.
  pose proof (submitted_reports w cf cap anon line hline v reps on _ g Hp Hon) as Su.
  assert (Fp : Forall (fun e => proper_event zone e /\ brief zone e) (submitted (log (g_srv g)))).
  { rewrite Su. apply Forall_fmap. eapply (sound_proper zone w cf (g_sent g)); [exact Ht|].
    pose proof (run_sound w cf (g_sent g)) as F. rewrite Er in F |- *. apply Forall_app in F. exact (proj1 F). }
  destruct (end_to_end zone (g_srv g) c l1 l2 i Rs El Hf Hw Fp Hs Hq Hi) as (b0 & e0 & a0 & css & E & Lb & La & Fh & M).
  rewrite Su in E. apply map_split in E. destruct E as (before & r1 & E1 & Eb & E). apply map_split in E. destruct E as (es & after & E2 & Ee & Ea).
  exists before, es, after, (reports (uuid_prefix w) rest). subst r1. split; [exact E1|]. split.
  { rewrite Er. unfold reports in E1 |- *. rewrite omap_app, E1, <- !app_assoc. reflexivity. }
  split; [rewrite <- Eb, map_length in Lb; exact Lb|]. rewrite <- Ea, map_length in La. split; [exact La|]. split.
  - destruct (C44_order _ _ Rs) as (_ & _ & _ & B). assert (length (in_hand (np (g_srv g))) <= 1) by (destruct (np (g_srv g)); cbn; lia). lia.
  - rewrite M. repeat f_equal. apply concat_told. rewrite Ee. exact Fh.
Qed.
End Handler.
