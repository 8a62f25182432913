(** Properties C54 and C55: the program as a whole. *)
From Coq Require Import Strings.String.
From stdpp Require Import gmap relations.
From Coq Require Import NArith ZArith Lia.
From Verif Require Import GoBase GoTime Inetdiag Netlink SpecNetlink SpecCompare SpecConfig SpecAddrText SpecJson SpecArchive ClientFacts SpecRecovered Cache Saver SpecSaver SaverReports
  System SpecSystem SystemInv SystemFiles SystemRefine SystemEnd SystemHidden Samples P_Saver P_System Program SpecProgram ProgramFacts ProgramEnd ProgramRuns ProgramEvents.
From Verif Require Import EventServer SpecEvents EventFacts EventClient SpecClient ClientServer.
From Verif Require Reader SpecReader Collector SpecCollector CollectorFacts.
Local Open Scope list_scope.

(** ** A run for the examples: the kernel's answers of four rounds, three
    marshallers, channels of capacity 1, an event client that connects first. *)
Definition multi (m : nlmsg) : nlmsg := mkmsg (mkhdr (h_len (m_header m)) 20 2 7 99) (m_data m).
Definition finis : nlmsg := mkmsg (mkhdr 20 3 2 7 99) (mkslice [x00; x00; x00; x00] []).
Definition kernel (n : nat) : list nlmsg :=
  match n with 0 => [conn_msg 7 10 20] | 1 => [conn_msg 7 10 20] | 2 => [conn_msg 7 10 90; conn_msg 8 1 1] | _ => [conn_msg 8 1 1] end.
Definition v0 : Collector.environment :=
  Collector.mkenv (fun n f => Collector.mksocket None (fun _ => None) (Ret 99%N) [Ret ((if N.eqb f 2 then map multi (kernel n) else []) ++ [finis])])
    (fun _ _ => 7%N) (fun n _ => ((1577836800 + Z.of_nat n) * second)%Z) (fun _ => false).
Definition utc (_ : Z) : Z := 0%Z.
Definition play0 : list (nat * list actor) -> prog := play w0 cf0 1 anon0 line0 hline0 v0 4 true (marshal_event utc).
Definition possible0 : prog -> Prop := possible w0 cf0 1 anon0 line0 hline0 v0 4 true (marshal_event utc).
Lemma play0_possible ps : possible0 (play0 ps).
Proof. apply play_possible. Qed.
Definition connect : list (nat * list actor) := [(1, [Serving]); (1, [Dial]); (1, [Serving])].
Definition workers : list actor := [Worker (Some 0); Worker (Some 1); Worker (Some 2); Worker None; Main].
Definition calm : prog := play0 (connect ++ [(2000, Notify :: workers)]).
Definition hasty : prog := play0 (connect ++ [(2000, workers)]).

(** ** C54: events *)
(** What the saver reports is true of the blocks it is given. *)
Theorem C54_truthful : forall w cf bs, fair_order w ->
  Forall (truthful (uuid_prefix w) (concat (map (accepted cf) bs)) (readings (s_log (message_saver_loop w cf bs))))
    (reports (uuid_prefix w) (s_log (message_saver_loop w cf bs))).
Proof. intros w cf bs Hf. apply (sound_truthful w _ _ _ _ Hf), run_sound. Qed.
Print Assumptions C54_truthful.

(** At every moment of every schedule: a client that was added to the server, to
    which no write has failed and for which none is under way, has been told
    exactly a segment of what the saver reports for the blocks sent so far,
    without gaps, repetitions or changes.  The segment begins no later than with
    the first report made after the client was added; the reports after it are
    those still in the server's channel (at most 101) and those the saver has not
    made yet. *)
Theorem C54_handler : forall w cf cap anon line hline v reps zone, (forall x, length (anon x) = length x) -> 1 <= nmarsh cf ->
  forall g c l1 l2 i, possible w cf cap anon line hline v reps true (marshal_event zone) g ->
  all_comparable cf (g_sent g) -> tellable zone w cf (g_sent g) ->
  log (g_srv g) = l1 ++ OAdd c :: l2 -> ~ has_failed c (log (g_srv g)) -> waiting (g_srv g) c = None ->
  SpecReader.solid i -> quiet (Reader.in_err i) -> SpecReader.contents i = received c (log (g_srv g)) ->
  exists before es after rest,
    reports (uuid_prefix w) (s_log (message_saver_loop w cf (g_sent g))) = before ++ es ++ after ++ rest /\
    length before <= length (submitted l1) /\ length after <= 101 /\
    must_run (Ret i) = Ret (map told es, Returned).
Proof.
  intros w cf cap anon line hline v reps zone Hl Hn g c l1 l2 i Hp Hc Ht E Hf Hw S Q C.
  destruct (handler w cf cap anon line hline v reps true zone Hl Hn g c l1 l2 i eq_refl Hp Hc Ht E Hf Hw S Q C)
    as (before & es & after & rest & _ & H2 & H3 & _ & H5 & H6). exists before, es, after, rest. auto.
Qed.
Print Assumptions C54_handler.

(** What such a client is told about one connection, when the files can be
    created: opens and closes in turn, the first one an open if the client was
    there before anything was reported. *)
Theorem C54_alternate : forall w cf cap anon line hline v reps zone, (forall x, length (anon x) = length x) -> 1 <= nmarsh cf ->
  forall g c l1 l2 i, possible w cf cap anon line hline v reps true (marshal_event zone) g ->
  all_comparable cf (g_sent g) -> tellable zone w cf (g_sent g) ->
  log (g_srv g) = l1 ++ OAdd c :: l2 -> ~ has_failed c (log (g_srv g)) -> waiting (g_srv g) c = None ->
  SpecReader.solid i -> quiet (Reader.in_err i) -> SpecReader.contents i = received c (log (g_srv g)) ->
  io_ok w -> fair_order w -> forall k, (0 < k < 18446744073709551616)%N ->
  exists cs, must_run (Ret i) = Ret (cs, Returned) /\
    (exists b, alternating b (about (from_cookie (uuid_prefix w) k) cs)) /\
    (submitted l1 = [] -> alternating true (about (from_cookie (uuid_prefix w) k) cs)).
Proof.
  intros w cf cap anon line hline v reps zone Hl Hn g c l1 l2 i Hp Hc Ht E Hf Hw S Q C Hio Hfair k Hk.
  destruct (C54_handler w cf cap anon line hline v reps zone Hl Hn g c l1 l2 i Hp Hc Ht E Hf Hw S Q C)
    as (before & es & after & rest & H2 & H3 & H5 & H6).
  exists (map told es). split; [exact H6|].
  pose proof (about_events w _ _ k _ Hfair (proj2 Hk) (run_sound w cf (g_sent g))) as A.
  rewrite H2, !map_app, about_app, about_app in A.
  assert (Hk0 : k <> 0%N) by lia.
  destruct (C17_alternate w cf Hio Hn Hfair (g_sent g) k Hk0) as [Alt _]. rewrite <- A in Alt.
  destruct (alternating_segment _ _ _ Alt) as [A1 A2]. split; [exact A1|].
  intros L1. apply A2. rewrite L1 in H3. destruct before; [reflexivity|cbn in H3; lia].
Qed.
Print Assumptions C54_alternate.

(** In every environment a connection is never reported as opened twice in a
    row. *)
Theorem C54_no_two_opens : forall w cf cap anon line hline v reps zone, (forall x, length (anon x) = length x) -> 1 <= nmarsh cf ->
  forall g c l1 l2 i, possible w cf cap anon line hline v reps true (marshal_event zone) g ->
  all_comparable cf (g_sent g) -> tellable zone w cf (g_sent g) ->
  log (g_srv g) = l1 ++ OAdd c :: l2 -> ~ has_failed c (log (g_srv g)) -> waiting (g_srv g) c = None ->
  SpecReader.solid i -> quiet (Reader.in_err i) -> SpecReader.contents i = received c (log (g_srv g)) ->
  fair_order w -> forall k, (k < 18446744073709551616)%N ->
  exists cs, must_run (Ret i) = Ret (cs, Returned) /\
    forall x y, about (from_cookie (uuid_prefix w) k) cs <> x ++ [true; true] ++ y.
Proof.
  intros w cf cap anon line hline v reps zone Hl Hn g c l1 l2 i Hp Hc Ht E Hf Hw S Q C Hfair k Hk.
  destruct (C54_handler w cf cap anon line hline v reps zone Hl Hn g c l1 l2 i Hp Hc Ht E Hf Hw S Q C)
    as (before & es & after & rest & H2 & H3 & H5 & H6).
  exists (map told es). split; [exact H6|]. intros x y Ex.
  pose proof (about_events w _ _ k _ Hfair Hk (run_sound w cf (g_sent g))) as A.
  rewrite H2, !map_app, about_app, about_app, Ex in A.
  apply (proj2 (C17_no_two_opens w cf (g_sent g) k (about (from_cookie (uuid_prefix w) k) (map told before) ++ x)
    (y ++ about (from_cookie (uuid_prefix w) k) (map told after ++ map told rest)))).
  rewrite <- A, <- !app_assoc. reflexivity.
Qed.
Print Assumptions C54_no_two_opens.

(** A client that was added before anything was reported, when the server has
    nothing left to deliver and the saver has done everything: it has been told
    all. *)
Theorem C54_everything : forall w cf cap anon line hline v reps zone, (forall x, length (anon x) = length x) -> 1 <= nmarsh cf ->
  forall g c l1 l2 i, possible w cf cap anon line hline v reps true (marshal_event zone) g ->
  all_comparable cf (g_sent g) -> tellable zone w cf (g_sent g) ->
  log (g_srv g) = l1 ++ OAdd c :: l2 -> ~ has_failed c (log (g_srv g)) -> waiting (g_srv g) c = None ->
  SpecReader.solid i -> quiet (Reader.in_err i) -> SpecReader.contents i = received c (log (g_srv g)) ->
  submitted l1 = [] -> buf (g_srv g) = [] -> (forall d, np (g_srv g) <> NLock d) ->
  executed (g_sys g) = s_log (message_saver_loop w cf (g_sent g)) ->
  must_run (Ret i) = Ret (map told (reports (uuid_prefix w) (s_log (message_saver_loop w cf (g_sent g)))), Returned).
Proof.
  intros w cf cap anon line hline v reps zone Hl Hn g c l1 l2 i Hp Hc Ht E Hf Hw S Q C L1 B N X.
  destruct (handler w cf cap anon line hline v reps true zone Hl Hn g c l1 l2 i eq_refl Hp Hc Ht E Hf Hw S Q C)
    as (before & es & after & rest & H1 & H2 & H3 & H4 & H5 & H6).
  rewrite L1 in H3. rewrite B in H4. destruct before; [|cbn in H3; lia]. destruct after as [|x after].
  2:{ exfalso. cbn in H4. destruct (np (g_srv g)); cbn in H4; try lia. by eapply N. }
  rewrite <- X, H1. cbn [app]. rewrite app_nil_r. exact H6.
Qed.
Print Assumptions C54_everything.

(** The hypotheses hold for the run above, and what the client of that run is
    told. *)
Definition stream (g : prog) : Reader.input := Reader.mkin [received 0 (log (g_srv g))] false ErrEOF.
Definition expected : list report :=
  [Created (1577836800 * second) (from_cookie (uuid_prefix w0) 7) (mksockid 443 5000 (str "10.0.0.1") (str "192.0.2.7") 0 7)%string;
   Created (1577836802 * second) (from_cookie (uuid_prefix w0) 8) (mksockid 443 5000 (str "10.0.0.1") (str "192.0.2.7") 0 8)%string;
   Deleted (1577836805 * second) (from_cookie (uuid_prefix w0) 7);
   Deleted (1577836806 * second) (from_cookie (uuid_prefix w0) 8)].
Lemma calm_sent : Forall (parses cf0) (g_sent calm) /\ all_comparable cf0 (g_sent calm).
Proof. apply message_ok. vm_compute. reflexivity. Qed.
Example calm_tellable : tellable utc w0 cf0 (g_sent calm).
Proof.
  split; [|split; [|split]].
  - assert (E : exists l, readings (s_log (message_saver_loop w0 cf0 (g_sent calm))) = l /\ Forall (writable_time utc) l).
    { eexists. split; [vm_compute; reflexivity|]. repeat (apply List.Forall_cons; [unfold writable_time, utc; cbn; lia|]). apply List.Forall_nil. }
    destruct E as (l & -> & F). exact F.
  - assert (E : exists l, block_times (g_sent calm) = l /\ Forall (writable_time utc) l).
    { eexists. split; [vm_compute; reflexivity|]. repeat (apply List.Forall_cons; [unfold writable_time, utc; cbn; lia|]). apply List.Forall_nil. }
    destruct E as (l & -> & F). exact F.
  - apply ascii_utf8, List.Forall_forall. intros b Hb.
    assert (E : forallb (fun b => (bval b <? 128)%N) (uuid_prefix w0) = true) by (vm_compute; reflexivity).
    rewrite forallb_forall in E. apply N.ltb_lt, E, Hb.
  - vm_compute. discriminate.
Qed.
Example calm_case : g_main calm = MExit /\ (exists l2, log (g_srv calm) = [OAdd 0] ++ l2) /\ waiting (g_srv calm) 0 = None /\
  buf (g_srv calm) = [] /\ np (g_srv calm) = NRecv /\ executed (g_sys calm) = s_log (message_saver_loop w0 cf0 (g_sent calm)) /\
  reports (uuid_prefix w0) (s_log (message_saver_loop w0 cf0 (g_sent calm))) = expected /\
  must_run (Ret (stream calm)) = Ret (map told expected, Returned).
Proof. 
  split; [vm_compute; reflexivity|]. split; [eexists; vm_compute; reflexivity|]. repeat (split; [vm_compute; reflexivity|]). vm_compute; reflexivity.
Qed.
Lemma no_failureb c l : forallb (fun o => match o with OWrite c' _ (Some _) => negb (Nat.eqb c' c) | _ => true end) l = true -> ~ has_failed c l.
Proof.
  intros H (ln & n & Hin). rewrite forallb_forall in H. apply elem_of_list_In in Hin. specialize (H _ Hin). cbn in H. rewrite Nat.eqb_refl in H. discriminate H.
Qed.
Example calm_no_failure : ~ has_failed 0 (log (g_srv calm)).
Proof. apply no_failureb. vm_compute. reflexivity. Qed.

Example calm_about : about (from_cookie (uuid_prefix w0) 7) (map told expected) = [true; false] /\
  about (from_cookie (uuid_prefix w0) 8) (map told expected) = [true; false] /\ about (from_cookie (uuid_prefix w0) 9) (map told expected) = [].
Proof. vm_compute. repeat split. Qed.
Example calm_world : io_ok w0 /\ fair_order w0.
Proof. split; [|apply w0_fair]. intros n. split; reflexivity. Qed.

(** main does not wait for the event server: when it returns, a client that was
    there from the beginning may not have been told of some connection, or of any. *)
Theorem C54_exit_refuted : ~ (forall w cf cap anon line hline v reps zone, (forall x, length (anon x) = length x) -> 1 <= nmarsh cf ->
  forall g c l2 i, possible w cf cap anon line hline v reps true (marshal_event zone) g ->
  all_comparable cf (g_sent g) -> Forall (parses cf) (g_sent g) -> fair_order w -> tellable zone w cf (g_sent g) -> cancelled (g_srv g) = false ->
  g_main g = MExit ->
  log (g_srv g) = OAdd c :: l2 -> ~ has_failed c (log (g_srv g)) -> waiting (g_srv g) c = None ->
  SpecReader.solid i -> quiet (Reader.in_err i) -> SpecReader.contents i = received c (log (g_srv g)) ->
  must_run (Ret i) = Ret (map told (reports (uuid_prefix w) (s_log (message_saver_loop w cf (g_sent g)))), Returned)).
Proof.
  intros H.
  assert (E : g_sent hasty = g_sent calm) by (vm_compute; reflexivity).
  assert (K : must_run (Ret (Reader.mkin [] false ErrEOF)) = Ret (map told (reports (uuid_prefix w0) (s_log (message_saver_loop w0 cf0 (g_sent hasty)))), Returned)).
  { eapply (H w0 cf0 1 anon0 line0 hline0 v0 4%Z utc anon0_len ltac:(cbn; lia) hasty 0).
    - apply play0_possible.
    - rewrite E. apply calm_sent.
    - rewrite E. apply calm_sent.
    - apply w0_fair.
    - rewrite E. apply calm_tellable.
    - vm_compute. reflexivity.
    - vm_compute. reflexivity.
    - vm_compute. reflexivity.
    - apply no_failureb. vm_compute. reflexivity.
    - vm_compute. reflexivity.
    - apply List.Forall_nil.
    - left. reflexivity.
    - vm_compute. reflexivity. }
  vm_compute in K. discriminate K.
Qed.
Print Assumptions C54_exit_refuted.

(** The report that a connection is gone does not wait for its file: a client may
    have been told so while the file is still open and lacks its last record. *)
Definition early : prog := play0 (connect ++ [(50, Notify :: workers); (2000, [Notify; Worker None; Main; Worker (Some 0); Worker (Some 2)])]).
Lemma early_sent : g_sent early = g_sent calm. Proof. vm_compute. reflexivity. Qed.
Theorem C54_file_refuted : ~ (forall w cf cap anon line hline v reps zone, (forall x, length (anon x) = length x) -> 1 <= nmarsh cf ->
  forall g c l2 i cs t u, possible w cf cap anon line hline v reps true (marshal_event zone) g ->
  all_comparable cf (g_sent g) -> Forall (parses cf) (g_sent g) -> fair_order w -> io_ok w -> tellable zone w cf (g_sent g) -> cancelled (g_srv g) = false ->
  log (g_srv g) = OAdd c :: l2 -> ~ has_failed c (log (g_srv g)) -> waiting (g_srv g) c = None ->
  SpecReader.solid i -> quiet (Reader.in_err i) -> SpecReader.contents i = received c (log (g_srv g)) ->
  must_run (Ret i) = Ret (cs, Returned) -> List.In (CClose t u) cs ->
  forall wr f d q, y_files (g_sys g) !! wr = Some f -> f_path f = file_path d u q -> f_open f = false).
Proof.
  intros H.
  assert (F : exists f, y_files (g_sys early) !! 0 = Some f /\ f_path f = file_path (format_date (1577836800 * second)) (from_cookie (uuid_prefix w0) 7) 0 /\ f_open f = true).
  { eexists. repeat (split; [vm_compute; reflexivity|]). vm_compute. reflexivity. }
  destruct F as (f & F1 & F2 & F3).
  assert (R : must_run (Ret (stream early)) = Ret (map told expected, Returned)) by (vm_compute; reflexivity).
  assert (K : f_open f = false); [|congruence].
  eapply (H w0 cf0 1 anon0 line0 hline0 v0 4%Z utc anon0_len ltac:(cbn; lia) early 0 _ (stream early) (map told expected) _ (from_cookie (uuid_prefix w0) 7)).
  - apply play0_possible.
  - rewrite early_sent. apply calm_sent.
  - rewrite early_sent. apply calm_sent.
  - apply w0_fair.
  - apply calm_world.
  - rewrite early_sent. apply calm_tellable.
  - vm_compute. reflexivity.
  - vm_compute. reflexivity.
  - apply no_failureb. vm_compute. reflexivity.
  - vm_compute. reflexivity.
  - repeat constructor. vm_compute. discriminate.
  - left. reflexivity.
  - unfold stream, SpecReader.contents. cbn [Reader.in_chunks]. apply app_nil_r.
  - exact R.
  - right. right. left. reflexivity.
  - exact F1.
  - exact F2.
Qed.
Print Assumptions C54_file_refuted.
Example early_file : match y_files (g_sys early) !! 0, y_files (g_sys calm) !! 0 with
  Some f, Some f' => f_path f = f_path f' /\ length (f_data f) < length (f_data f') | _, _ => False end.
Proof. vm_compute. split; [reflexivity|lia]. Qed.

(** ** C55: from the start of main to its end *)
(** The blocks the saver is given are those of the collector's iterations, in
    order; as many as -reps says when main has returned and ctx was not done. *)
Theorem C55_blocks : forall w cf cap anon line hline v reps on marshal g,
  possible w cf cap anon line hline v reps on marshal g ->
  collected v (g_sent g) /\ (reps <> 0%Z -> length (g_sent g) <= Z.to_nat reps) /\
  (g_main g = MExit -> cancelled (g_srv g) = false -> reps <> 0%Z /\ length (g_sent g) = Z.to_nat reps).
Proof.
  intros w cf cap anon line hline v reps on marshal g Hp.
  destruct (invs w cf cap anon line hline v reps on marshal g Hp) as [(I1 & I2 & I3 & I4 & I5 & I6) _]. split; [exact I1|].
  assert (L : reps <> 0%Z -> length (g_sent g) <= Z.to_nat reps).
  { intros Hr. destruct (length (g_sent g)) as [|n] eqn:El; [lia|]. destruct (I2 n ltac:(lia)) as [X|X]; [contradiction|lia]. }
  split; [exact L|]. intros Hm Hc. rewrite Hm in I6. destruct I6 as [I6|I6]; [|congruence].
  assert (Hr : reps <> 0%Z) by (intros Hr; apply I6; by left). split; [exact Hr|]. specialize (L Hr).
  assert (~ (Z.of_nat (length (g_sent g)) < reps)%Z) by (intros X; apply I6; by right). lia.
Qed.
Print Assumptions C55_blocks.

(** The channel between the collector and the saver holds two blocks: never more,
    and the collector waits to send only while there are two in it. *)
Theorem C55_buffer : forall w cf cap anon line hline v reps on marshal g,
  possible w cf cap anon line hline v reps on marshal g ->
  length (g_chan g) <= 2 /\
  (forall n b, running g -> g_main g = MSend n b -> length (g_chan g) < 2 ->
     exists g', moves w cf cap anon line hline v reps on marshal g g' /\ g_sent g' = g_sent g ++ [b] /\ g_main g' = MLoop (S n)) /\
  (forall n b g', g_main g = MSend n b -> length (g_chan g) = 2 -> moves w cf cap anon line hline v reps on marshal g g' ->
     g_main g' = MSend n b).
Proof.
  intros w cf cap anon line hline v reps on marshal g Hp.
  destruct (invs w cf cap anon line hline v reps on marshal g Hp) as [(I1 & I2 & I3 & I4 & I5 & I6) _]. split; [exact I5|]. split.
  - intros n b R M L. eexists. split; [apply by_work; [exact R|]; by eapply k_send|]. by split.
  - intros n b g' M L [g2 _ W|g2 _ [s O S|s S B C]]; [|exact M|exact M].
    destruct W as [n' b' c M' G C|n' b' M' L'|n' M' G|M'|M' Wg|b' bs R C|R C Cl|y S E|y e S E Cl L'|y e S E Cl];
      try (rewrite M in M'; discriminate M'); try exact M. unfold svr_capacity in L'. lia.
Qed.
Print Assumptions C55_buffer.

(** When main has returned every block sent has been processed and every file is
    complete and closed: exactly the files of the saver's loop on these blocks. *)
Theorem C55_files : forall w cf cap anon line hline v reps on marshal, (forall x, length (anon x) = length x) -> 1 <= nmarsh cf ->
  forall g, possible w cf cap anon line hline v reps on marshal g -> g_main g = MExit ->
  fair_order w -> all_comparable cf (g_sent g) -> Forall (parses cf) (g_sent g) ->
  (forall wr, y_files (g_sys g) !! wr = final_file anon line hline wr (s_log (message_saver_loop w cf (g_sent g)))) /\
  (forall wr f, y_files (g_sys g) !! wr = Some f -> f_open f = false).
Proof.
  intros w cf cap anon line hline v reps on marshal Hl Hn g Hp Hm Hf Hc Hpar.
  destruct (after_exit w cf cap anon line hline v reps on marshal Hl Hn g Hp Hm Hf Hc Hpar) as (En & _ & F).
  pose proof (full_reachable w cf cap anon line hline v reps on marshal g Hp) as R. unfold full in R. rewrite En in R.
  split; [apply (same_end w cf cap anon line hline Hl Hn (g_sent g) Hc _ R F)|].
  intros wr f Hw. destruct F as (_ & _ & _ & W & _). exact (proj1 (proj2 (C30_wait w cf cap anon line hline Hl Hn (g_sent g) Hc Hpar Hf _ R W) wr f Hw)).
Qed.
Print Assumptions C55_files.

(** Nothing crashes as long as ctx is not done. *)
Theorem C55_no_crash : forall w cf cap anon line hline v reps on marshal, (forall x, length (anon x) = length x) -> 1 <= nmarsh cf ->
  forall g, possible w cf cap anon line hline v reps on marshal g -> cancelled (g_srv g) = false ->
  fair_order w -> all_comparable cf (g_sent g) -> Forall (parses cf) (g_sent g) -> g_main g = MExit \/ running g.
Proof.
  intros w cf cap anon line hline v reps on marshal Hl Hn g Hp Hcan Hf Hc Hpar.
  assert (D : g_main g = MExit \/ g_main g <> MExit) by (destruct (g_main g); auto; right; discriminate). destruct D as [D|D]; [by left|right].
  destruct (not_closed w cf cap anon line hline v reps on marshal g Hp Hcan) as [_ Hcr].
  by apply (keeps_running w cf cap anon line hline v reps on marshal Hl Hn).
Qed.
Print Assumptions C55_no_crash.

(** It never gets stuck: main, the saver or a marshaller can make a step, if
    necessary after the event server has made room for an event. *)
Theorem C55_progress : forall w cf cap anon line hline v reps on marshal, (forall x, length (anon x) = length x) -> 1 <= nmarsh cf ->
  forall g, possible w cf cap anon line hline v reps on marshal g -> running g -> cancelled (g_srv g) = false ->
  1 <= cap -> fair_order w -> all_comparable cf (g_sent g) -> Forall (parses cf) (g_sent g) -> answers v ->
  exists g1 g2, rtc (elsewhere on marshal) g g1 /\ g1 = with_srv (g_srv g1) g /\ cancelled (g_srv g1) = false /\
    work w cf cap anon line hline v reps on g1 g2 /\ crashed (g_srv g2) = false.
Proof.
  intros w cf cap anon line hline v reps on marshal Hl Hn g Hp Hr Hcan Hcap Hf Hc Hpar Ha.
  destruct (never_stuck w cf cap anon line hline v reps on marshal Hl Hn g Hp Hr Hcan Hcap Hf Hc Hpar Ha) as (g1 & g2 & H1 & H2 & H3 & H4 & H5 & H6).
  exists g1, g2. auto.
Qed.
Print Assumptions C55_progress.

(** With a number of repetitions, main, the saver and the marshallers together
    make finitely many steps in any execution, whatever the event server, its
    clients and whoever ends ctx do in between. *)
Theorem C55_terminates : forall w cf cap anon line hline v reps on marshal, reps <> 0%Z ->
  forall f, possible w cf cap anon line hline v reps on marshal (f 0) ->
  ~ (forall n, advances w cf cap anon line hline v reps on marshal (f n) (f (S n))).
Proof. intros w cf cap anon line hline v reps on marshal Hr f Hp. exact (no_endless w cf cap anon line hline v reps on marshal f Hr Hp). Qed.
Print Assumptions C55_terminates.

(** And every state leads to the end of main. *)
Theorem C55_completes : forall w cf cap anon line hline v reps on marshal, (forall x, length (anon x) = length x) -> 1 <= nmarsh cf ->
  reps <> 0%Z -> 1 <= cap -> fair_order w -> answers v ->
  (forall n b, SpecCollector.block_of v n b -> parses cf b /\ Forall comparable (accepted cf b)) ->
  forall g, possible w cf cap anon line hline v reps on marshal g -> cancelled (g_srv g) = false ->
  exists g', rtc (moves w cf cap anon line hline v reps on marshal) g g' /\ g_main g' = MExit /\ cancelled (g_srv g') = false.
Proof. intros w cf cap anon line hline v reps on marshal Hl Hn. exact (leads_to_exit w cf cap anon line hline v reps on marshal Hl Hn). Qed.
Print Assumptions C55_completes.

(** With -reps 0 there is always another block: no endless execution without one,
    and every state leads to one. *)
Theorem C55_no_stall : forall w cf cap anon line hline v reps on marshal (f : nat -> prog),
  ~ (forall n, advances w cf cap anon line hline v reps on marshal (f n) (f (S n)) /\ g_sent (f (S n)) = g_sent (f n)).
Proof. exact no_stall. Qed.
Print Assumptions C55_no_stall.

Theorem C55_next_block : forall w cf cap anon line hline v on marshal, (forall x, length (anon x) = length x) -> 1 <= nmarsh cf ->
  1 <= cap -> fair_order w -> answers v ->
  (forall n b, SpecCollector.block_of v n b -> parses cf b /\ Forall comparable (accepted cf b)) ->
  forall g, possible w cf cap anon line hline v 0 on marshal g -> cancelled (g_srv g) = false ->
  exists g', rtc (moves w cf cap anon line hline v 0 on marshal) g g' /\ length (g_sent g') = S (length (g_sent g)) /\ cancelled (g_srv g') = false.
Proof. intros w cf cap anon line hline v on marshal Hl Hn. exact (next_block w cf cap anon line hline v 0 on marshal Hl Hn eq_refl). Qed.
Print Assumptions C55_next_block.

(** The example meets the hypotheses, and both runs end with the same files. *)
Lemma v0_block n : exists b c, Collector.collect v0 n = Ret (b, c) /\ V4Messages b = map Some (map multi (kernel n)) /\ V6Messages b = [].
Proof.
  assert (H : match Collector.collect v0 n with Ret (b, _) => V4Messages b = map Some (map multi (kernel n)) /\ V6Messages b = [] | _ => False end)
    by (destruct n as [|[|[|n]]]; vm_compute; split; reflexivity).
  destruct (Collector.collect v0 n) as [[b c]| | |]; [|contradiction..]. exists b, c. split; [reflexivity|exact H].
Qed.
Example v0_answers : answers v0.
Proof. intros n. destruct (v0_block n) as (b & c & H & _). exists b. by eapply CollectorFacts.collect_block. Qed.
Example calm_files : forall h, h = calm \/ h = hasty ->
  map (fun n => match y_files (g_sys h) !! n with Some f => Some (length (f_data f), f_open f) | None => None end) [0; 1; 2] =
  [Some (177, false); Some (104, false); None] /\ length (g_sent h) = 4 /\ g_main h = MExit.
Proof. intros h [->| ->]; vm_compute; repeat split. Qed.
Example halfway : let g := play0 (connect ++ [(60, workers)]) in
  g_main g = MLoop 3 /\ existsb (fun n => match y_files (g_sys g) !! n with Some f => f_open f | None => false end) [0; 1] = true.
Proof. vm_compute. split; reflexivity. Qed.

(** If ctx is done before main returns, the event server closes its channel and
    the saver's next event ends the process: files stay incomplete. *)
Theorem C55_cancel_refuted : ~ (forall w cf cap anon line hline v reps on marshal, (forall x, length (anon x) = length x) -> 1 <= nmarsh cf ->
  1 <= cap -> fair_order w -> answers v ->
  forall g, possible w cf cap anon line hline v reps on marshal g -> all_comparable cf (g_sent g) -> Forall (parses cf) (g_sent g) ->
  g_main g = MExit \/ running g).
Proof.
  intros H. set (g := play0 (connect ++ [(60, workers); (1, [Cancel]); (3, [Cleanup]); (2000, workers)])).
  assert (S : Forall (parses cf0) (g_sent g) /\ all_comparable cf0 (g_sent g)) by (apply message_ok; vm_compute; reflexivity).
  destruct (H w0 cf0 1 anon0 line0 hline0 v0 4%Z true (marshal_event utc) anon0_len ltac:(cbn; lia) ltac:(lia) (w0_fair _) v0_answers g (play0_possible _) (proj2 S) (proj1 S)) as [K|(_ & K & _)].
  - vm_compute in K. discriminate K.
  - vm_compute in K. discriminate K.
Qed.
Print Assumptions C55_cancel_refuted.
