(** Property C77: the files of a connection, read one after the other, are its
    history. *)
From Coq Require Import Strings.String.
From stdpp Require Import gmap relations.
From Coq Require Import NArith ZArith Lia.
From Verif Require Import GoBase GoBaseFacts GoTime Inetdiag Netlink SpecNetlink RecordFacts SpecCompare Snapshot SpecSnapshot SpecJson Archive SpecArchive
  Cache Saver SpecSaver System SpecSystem SystemHidden SpecRecovered SmallFiles SpecPipeline PipelineFacts SpecConfig MainConfig P_Main Flags SpecFlags P_Flags
  Anonymizer P_Privacy Program SpecProgram ProgramFacts ProgramEnd Disk SpecDisk DiskFacts Whole SpecWhole WholeFacts
  Samples P_Saver P_System P_Archive P_Pipeline P_Program P_Disk P_Whole SpecTable CsvTable SpecTool FileNames P_LineDisk P_Tool SpecHistory FilesInOrder.
From Verif Require SpecPath PathFacts SpecLine Collector ProgramRuns SaverFiles SaverSteps.
Local Open Scope list_scope.

(** ** The saver *)

(** The records queued for the files of connection k, one file after the other in
    the order of creation, are the records of k in the order they were queued. *)
Theorem C77_order : forall w cf bs k, (k < two64)%N -> let l := log_of w cf bs in
  in_files l (files_of (uuid_prefix w) k l) = of_connection k (queued l) /\ NoDup (files_of (uuid_prefix w) k l).*1.
Proof.
  intros w cf bs k Hk. destruct (reached_hinv w cf _ (SaverSteps.message_saver_loop_steps w cf bs)) as [_ H]. destruct (H k Hk) as (A & B & _). by split.
Qed.
Print Assumptions C77_order.

(** The files of a connection that was opened once are numbered 0, 1, 2 and so on. *)
Theorem C77_numbers : forall w cf bs k, (k < two64)%N -> let l := log_of w cf bs in NoDup (openings l) ->
  map (fun f => md_seq f.2) (files_of (uuid_prefix w) k l) = map Z.of_nat (seq 0 (length (files_of (uuid_prefix w) k l))).
Proof.
  intros w cf bs k Hk l Nd. destruct (reached_hinv w cf _ (SaverSteps.message_saver_loop_steps w cf bs)) as [_ H]. destruct (H k Hk) as (_ & _ & _ & _ & C). by apply C.
Qed.
Print Assumptions C77_numbers.

(** What is queued is what C24 says of each poll; if a file operation fails, a part
    of it. *)
Theorem C77_recorded : forall w cf, 1 <= nmarsh cf -> fair_order w -> forall bs, Forall (parses cf) bs -> all_comparable cf bs ->
  exists rs, recorded cf bs rs /\ queued (log_of w cf bs) `sublist_of` rs /\ (io_ok w -> queued (log_of w cf bs) = rs) /\ forall rs', recorded cf bs rs' -> rs' = rs.
Proof.
  intros w cf Hn Hf bs Hp Hc. destruct (recorded_sublist w cf Hn Hf bs Hp Hc) as (rs & R & S). exists rs. split; [exact R|]. split; [exact S|]. split.
  - intros Hio. eapply recorded_det; [|exact R]. by apply recorded_queued.
  - intros rs' R'. by eapply recorded_det.
Qed.
Print Assumptions C77_recorded.

(** ** The disk *)

Lemma choose {A B} (R : nat -> A -> B -> Prop) (l : list A) : (forall i x, l !! i = Some x -> exists y, R i x y) -> exists l', length l' = length l /\ forall i x y, l !! i = Some x -> l' !! i = Some y -> R i x y.
Proof.
  revert R. induction l as [|x l IH]; intros R H; [exists []; split; [reflexivity|done]|].
  destruct (H 0 x eq_refl) as (y & Hy). destruct (IH (fun i => R (S i))) as (l' & Ll & Hl); [intros i z Hz; exact (H (S i) z Hz)|].
  exists (y :: l'). split; [cbn; by rewrite Ll|]. intros [|i] a b Ha Hb; cbn in Ha, Hb; [injection Ha as <-; injection Hb as <-; exact Hy|by eapply Hl].
Qed.
Lemma Forall2_concat {A B} (R : A -> B -> Prop) (ls : list (list A)) (ls' : list (list B)) : length ls' = length ls ->
  (forall i x y, ls !! i = Some x -> ls' !! i = Some y -> Forall2 R x y) -> Forall2 R (concat ls) (concat ls').
Proof.
  revert ls'. induction ls as [|x ls IH]; intros [|y ls'] L H; try discriminate L; [constructor|]. cbn [concat]. apply Forall2_app; [by apply (H 0)|].
  apply IH; [by injection L|]. intros i. exact (H (S i)).
Qed.
Lemma filter_concat {A} (f : A -> bool) (ls : list (list A)) : List.filter f (concat ls) = concat (map (List.filter f) ls).
Proof. induction ls as [|x ls IH]; [reflexivity|]. cbn [concat map]. by rewrite List.filter_app, IH. Qed.
Lemma Forall2_omap {A B C} (known : A -> bool) (h : A -> option B) (R : B -> C -> Prop) (l : list A) : forall ys,
  (forall q, q ∈ l -> known q = true <-> exists r, h q = Some r) -> Forall2 R (omap h l) ys ->
  Forall2 (fun q y => exists r, h q = Some r /\ R r y) (List.filter known l) ys.
Proof.
  induction l as [|q l IH]; intros ys K F; [inversion F; constructor|].
  assert (K' : forall q, q ∈ l -> known q = true <-> exists r, h q = Some r) by (intros q' I; apply K; by right).
  specialize (K q (elem_of_list_here _ _)). cbn [omap list_omap List.filter] in F |- *. destruct (h q) as [r|] eqn:E.
  - rewrite (proj2 K) by eauto. inversion F; subst. constructor; eauto.
  - destruct (known q) eqn:Kq; [destruct (proj1 K eq_refl) as (r & X); congruence|]. by apply IH.
Qed.

Lemma Forall2_with {A B} (P : A -> Prop) (R : A -> B -> Prop) l l' : Forall P l -> Forall2 R l l' -> Forall2 (fun x y => P x /\ R x y) l l'.
Proof. intros F G. induction G; [constructor|]. apply Forall_cons in F as [? F]. constructor; auto. Qed.

(** The name tells the cookie. *)
Lemma named_cookie host k k' n n' p : named_for host k n p -> named_for host k' n' p -> k = k'.
Proof.
  intros (dir & K & N & [Kk _] & [Nn _] & E) (dir' & K' & N' & [Kk' _] & [Nn' _] & E'). rewrite E in E'. clear E.
  destruct (PathFacts.numeral_clean _ _ _ Nn) as (D1 & _). destruct (PathFacts.numeral_clean _ _ _ Nn') as (D2 & _).
  destruct (PathFacts.numeral_clean _ _ _ Kk) as (_ & U1 & _). destruct (PathFacts.numeral_clean _ _ _ Kk') as (_ & U2 & _).
  assert (E : (((dir ++ str "/" ++ host) ++ x5f :: K) ++ x2e :: N) ++ str ".jsonl.zst" = (((dir' ++ str "/" ++ host) ++ x5f :: K') ++ x2e :: N') ++ str ".jsonl.zst").
  { change (x5f :: K) with (str "_" ++ K). change (x5f :: K') with (str "_" ++ K'). change (x2e :: N) with (str "." ++ N). change (x2e :: N') with (str "." ++ N').
    rewrite <- !app_assoc. exact E'. }
  apply app_inv_tail in E. apply PathFacts.last_sep in E as [E _]; [|exact D1|exact D2]. apply PathFacts.last_sep in E as [_ ->]; [|exact U1|exact U2].
  exact (PathFacts.numeral_unique _ _ _ _ Kk Kk').
Qed.

Lemma made_header cf bs q t m : made_of cf bs q t m -> length (header q) = 72.
Proof.
  intros (_ & ar & Em & ->). destruct (make_ret_some m _ ar Em) as (_ & Hl & _ & ? & ? & _ & _ & _ & _ & Er & _). unfold header. cbn [ar_raw]. rewrite Er.
  unfold raw_of. rewrite firstn_length. lia.
Qed.

(** The files of a connection by number. *)
Lemma files_by_number w cf bs k : (k < two64)%N -> NoDup (openings (log_of w cf bs)) -> forall i wr md, files_of (uuid_prefix w) k (log_of w cf bs) !! i = Some (wr, md) ->
  exists p, ACreate wr p ∈ log_of w cf bs /\ named_for (uuid_prefix w) k i p /\ (exists K, SpecPath.padded 16 16 K k /\ md_uuid md = uuid_prefix w ++ str "_" ++ K) /\ md_seq md = Z.of_nat i /\
    forall md', AHeader wr md' ∈ log_of w cf bs -> md' = md.
Proof.
  intros Hk Nd i wr md E. pose proof (C77_numbers w cf bs k Hk Nd) as Nu. cbv zeta in Nu.
  assert (Sq : md_seq md = Z.of_nat i).
  { assert (L : i < length (files_of (uuid_prefix w) k (log_of w cf bs))) by (by eapply lookup_lt_Some).
    apply (f_equal (fun l => l !! i)) in Nu. change (map (fun f : nat * metadata => md_seq f.2)) with (fmap (M:=list) (fun f : nat * metadata => md_seq f.2)) in Nu.
    change (map Z.of_nat) with (fmap (M:=list) Z.of_nat) in Nu. rewrite !list_lookup_fmap, E, lookup_seq_lt in Nu by exact L. cbn in Nu. by injection Nu. }
  assert (I : (wr, md) ∈ files_of (uuid_prefix w) k (log_of w cf bs)) by (by eapply elem_of_list_lookup_2). apply files_of_in in I as [I U].
  assert (J : AHeader wr md ∈ file_actions wr (log_of w cf bs)) by (unfold file_actions; apply elem_of_list_In, List.filter_In; split; [by apply elem_of_list_In|cbn; apply Nat.eqb_refl]).
  unfold log_of in J. destruct (SaverFiles.file_histories w cf _ wr (SaverSteps.message_saver_loop_steps w cf bs)) as [Em|(cl & q & k' & md' & recs & p & Ef & _)]; [rewrite Em in J; by apply elem_of_nil in J|].
  assert (Ic : ACreate wr p ∈ log_of w cf bs).
  { assert (X : ACreate wr p ∈ file_actions wr (log_of w cf bs)) by (unfold log_of; rewrite Ef; left). unfold file_actions in X. apply elem_of_list_In, List.filter_In in X as [X _]. by apply elem_of_list_In. }
  destruct (file_named w cf bs wr p Ic) as (k2 & seq & md2 & Nf & _ & One & (K & Pk & Uu) & Sq2 & _). pose proof (One md I) as <-.
  assert (k2 = k) as ->.
  { rewrite U in Uu. unfold from_cookie in Uu. apply app_inv_head in Uu. apply (app_inv_head [x5f]) in Uu. subst K.
    destruct Pk as [Pk _]. destruct (PathFacts.padded_hex k Hk) as [Pk' _]. exact (PathFacts.numeral_unique _ _ _ _ Pk Pk'). }
  assert (seq = i) as -> by lia. exists p. split; [exact Ic|]. split; [exact Nf|]. split; [exists K; by split|]. split; [exact Sq|exact One].
Qed.
(** And a file that is named for a connection is one of them. *)
Lemma named_file w cf bs k n p : p ∈ paths (log_of w cf bs) -> named_for (uuid_prefix w) k n p ->
  exists i wr md, files_of (uuid_prefix w) k (log_of w cf bs) !! i = Some (wr, md) /\ ACreate wr p ∈ log_of w cf bs.
Proof.
  intros Ip Nf. apply paths_in in Ip as (wr & Ic). destruct (file_named w cf bs wr p Ic) as (k2 & seq & md & Nf2 & Hh & One & (K & Pk & Uu) & _).
  rewrite (named_cookie _ _ _ _ _ _ Nf2 Nf) in Pk. assert (I : (wr, md) ∈ files_of (uuid_prefix w) k (log_of w cf bs)).
  { apply files_of_in. split; [exact Hh|]. pose proof Ic as Ic'. apply elem_of_list_split in Ic' as (l1 & l2 & E).
    destruct (SaverFiles.files_named w cf _ l1 wr p l2 (SaverSteps.message_saver_loop_steps w cf bs) E) as (md' & l3 & -> & (k' & t & Lt & U & _)).
    assert (md' = md) as -> by (apply One; rewrite E; apply elem_of_app; right; right; left).
    assert (k' = k) as ->; [|exact U]. rewrite U in Uu. unfold from_cookie in Uu. apply app_inv_head in Uu. apply (app_inv_head [x5f]) in Uu. subst K.
    destruct Pk as [Pk _]. destruct (PathFacts.padded_hex k' Lt) as [Pk' _]. exact (PathFacts.numeral_unique _ _ _ _ Pk' Pk). }
  apply elem_of_list_lookup in I as (i & I). eauto.
Qed.

(** The file with number i of a connection, on disk: its name, the line of its
    metadata, and its other lines xs. *)
Definition file_with (zone : Z -> Z) (unz : bytes -> bytes) (k : disk) (host : bytes) (cookie : N) (i : nat) (p : bytes) (xs : list bytes) : Prop :=
  named_for host cookie i p /\ exists c md x0, d_file k p = Some c /\ unz c = concat (map (fun y => y ++ [x0a]) (x0 :: xs)) /\
    SpecLine.record_text zone (mkar zero_time None [] (Some md)) x0 /\ (exists K, SpecPath.padded 16 16 K cookie /\ md_uuid md = host ++ str "_" ++ K) /\ md_seq md = Z.of_nat i.
(** The same for the table that csvtool makes of it: the rows after the header and
    the metadata are [rows]. *)
Definition file_table_with (to_csv : list snapshot -> bytes * bool) (unz : bytes -> bytes) (k : disk) (host : bytes) (cookie : N) (i : nat) (p : bytes) (rows : list (list bytes)) : Prop :=
  named_for host cookie i p /\ exists c out row0, d_file k p = Some c /\ prints to_csv (unz c) out /\ table_text (actual_header :: row0 :: rows) out /\ metadata_row row0.

Section History.
Variables (st : settings) (w : world) (cap : nat) (zone : Z -> Z) (v : Collector.environment) (on : bool) (marshal : EventServer.flow_event -> option bytes).
Variables (z unz : bytes -> bytes) (k0 : bytes -> option bytes) (g : prog) (k : disk).
Notation cf := (main_cf st).
Notation anon := (main_anon (f_anon st)).
Notation log := (log_of w cf (g_sent g)).
Hypothesis (Hcap : 1 <= cap) (Hz : forall x, unz (z x) = x).
Hypothesis (Hr : run_of w cf cap anon (json_line zone) (header_line zone) v (f_reps st) on marshal z k0 (g, k)).
Hypothesis (Hm : g_main g = MExit) (Hu : usual zone w cf (g_sent g)).

(** The files of a connection with something in each, and all of it together. *)
Lemma gather {A} (R : archival -> A -> Prop) (H : nat -> bytes -> list A -> Prop) cookie : (cookie < two64)%N ->
  (forall i wr md, files_of (uuid_prefix w) cookie log !! i = Some (wr, md) -> exists p xs, ACreate wr p ∈ log /\ H i p xs /\
     Forall2 R (List.filter known_family (queued (file_actions wr log))) xs) ->
  exists fs : list (bytes * list A), (forall i p xs, fs !! i = Some (p, xs) -> H i p xs) /\
    (forall p n, d_file k p <> k0 p -> named_for (uuid_prefix w) cookie n p -> p ∈ fs.*1) /\
    Forall2 R (List.filter known_family (of_connection cookie (queued log))) (concat fs.*2).
Proof using Hr Hm Hu.
  intros Hk F. set (fl := files_of (uuid_prefix w) cookie log) in *.
  destruct (choose (fun i (f : nat * metadata) (y : bytes * list A) => ACreate f.1 y.1 ∈ log /\ H i y.1 y.2 /\ Forall2 R (List.filter known_family (queued (file_actions f.1 log))) y.2) fl) as (fs & L & C).
  { intros i [wr md] E. destruct (F i wr md E) as (p & xs & X). by exists (p, xs). }
  exists fs. assert (G : forall i y, fs !! i = Some y -> exists f, fl !! i = Some f).
  { intros i y E. apply lookup_lt_is_Some. rewrite <- L. by eapply lookup_lt_Some. }
  assert (G' : forall i f, fl !! i = Some f -> exists y, fs !! i = Some y).
  { intros i y E. apply lookup_lt_is_Some. rewrite L. by eapply lookup_lt_Some. }
  split; [|split].
  - intros i p xs E. destruct (G _ _ E) as (f & Ef). destruct (C i f _ Ef E) as (_ & X & _). exact X.
  - intros p n Hd Nf. destruct (in_dec (List.list_eq_dec Byte.byte_eq_dec) p (paths log)) as [Ip|Ip]; rewrite <- elem_of_list_In in Ip.
    + destruct (named_file w cf (g_sent g) cookie n p Ip Nf) as (i & wr & md & E & Ic). destruct (G' _ _ E) as ([p' xs] & Ey). destruct (C _ _ _ E Ey) as (Ic' & _). cbn [fst] in Ic'.
      assert (p' = p) as ->. { eapply created_unique; [|exact Ic'|exact Ic]. apply (SaverHeld.creations_nodup w cf). apply SaverSteps.message_saver_loop_steps. }
      apply elem_of_list_fmap. exists (p, xs). split; [reflexivity|]. by eapply elem_of_list_lookup_2.
    + exfalso. apply Hd. destruct (finished_run st w cap zone v on marshal z k0 g k Hr Hm Hu) as (_ & _ & Rd).
      by apply (C72_untouched _ _ _ _ _ _ _ (main_anon_len _) (cf_marsh st) _ (u_comparable _ _ _ _ Hu) _ _ _ Rd).
  - destruct (C77_order w cf (g_sent g) cookie Hk) as [O _]. rewrite <- O. fold fl. unfold in_files. rewrite filter_concat, map_map.
    apply Forall2_concat; [change (map ?f fl) with (f <$> fl); rewrite !fmap_length; exact L|].
    intros i x y Ex Ey. change (map ?f fl) with (f <$> fl) in Ex. rewrite list_lookup_fmap in Ex. rewrite list_lookup_fmap in Ey.
    destruct (fl !! i) as [f|] eqn:Ef; [|discriminate Ex]. destruct (fs !! i) as [h|] eqn:Eh; [|discriminate Ey]. cbn in Ex, Ey. injection Ex as <-. injection Ey as <-.
    destruct (C _ _ _ Ef Eh) as (_ & _ & X). exact X.
Qed.
End History.

(** ** When main has returned *)

(** A connection's files are numbered 0, 1, 2, ...; no other file that has appeared
    or changed bears its name.  Apart from the line of the metadata, their lines one
    after the other are the connection's reports that were new or changed since the
    poll before, in the order of the polls, each once; all of them if no file
    operation failed. *)
Theorem C77_lines : forall lib args env st, distinct lib -> main_flags lib args env = Goes st ->
  forall w cap zone v on marshal z unz k0 g k, 1 <= cap -> (forall x, unz (z x) = x) ->
  run_of w (main_cf st) cap (main_anon (f_anon st)) (json_line zone) (header_line zone) v (f_reps st) on marshal z k0 (g, k) ->
  g_main g = MExit -> usual zone w (main_cf st) (g_sent g) ->
  exists rs qs, recorded (main_cf st) (g_sent g) rs /\ qs `sublist_of` rs /\ (io_ok w -> qs = rs) /\
  forall cookie, (cookie < 2 ^ 64)%N -> exists fs : list (bytes * list bytes),
    (forall i p xs, fs !! i = Some (p, xs) -> file_with zone unz k (uuid_prefix w) cookie i p xs) /\
    (forall p n, d_file k p <> k0 p -> named_for (uuid_prefix w) cookie n p -> p ∈ fs.*1) /\
    Forall2 (fun q x => (exists t m, made_of (main_cf st) (g_sent g) q t m) /\ forall t m, made_of (main_cf st) (g_sent g) q t m -> exists r, record_of (main_anon (f_anon st)) t m r /\ SpecLine.record_text zone r x)
      (List.filter known_family (of_connection cookie qs)) (concat fs.*2).
Proof.
  intros lib args env st Hd Hg w cap zone v on marshal z unz k0 g k Hcap Hz Hr Hm Hu.
  destruct (C77_recorded w (main_cf st) (cf_marsh st) (u_order _ _ _ _ Hu) (g_sent g) (u_parses _ _ _ _ Hu) (u_comparable _ _ _ _ Hu)) as (rs & Rr & Sr & Er & _).
  exists rs, (queued (log_of w (main_cf st) (g_sent g))). split; [exact Rr|]. split; [exact Sr|]. split; [exact Er|]. intros cookie Hk. change (2 ^ 64)%N with two64 in Hk.
  apply (gather st w cap zone v on marshal z k0 g k Hr Hm Hu); [exact Hk|]. intros i wr md E.
  destruct (files_by_number w (main_cf st) (g_sent g) cookie Hk (u_once _ _ _ _ Hu) i wr md E) as (p & Ic & Nf & Uu & Sq & One).
  destruct (disk_lines st w cap zone v on marshal z k0 g k Hcap Hr Hm Hu wr p Ic) as (md' & x & xs & D & Hmd & Ex & F & Mk). rewrite (One md' Hmd) in F.
  inversion F as [|? x0 ? xs' F0 F1 E1 E2]; subst xs. exists p, xs'. split; [exact Ic|]. split.
  - split; [exact Nf|]. exists (z x), md, x0. split; [exact D|]. split; [rewrite Hz; exact Ex|]. split; [exact F0|]. split; [exact Uu|exact Sq].
  - apply (Forall2_omap known_family) in F1.
    + assert (Fk : Forall (fun q => exists t m, made_of (main_cf st) (g_sent g) q t m) (List.filter known_family (queued (file_actions wr (log_of w (main_cf st) (g_sent g)))))).
      { apply Forall_forall. intros q Iq. apply elem_of_list_In, List.filter_In in Iq as [Iq _]. apply Mk. by apply elem_of_list_In. }
      eapply Forall2_impl; [exact (Forall2_with _ _ _ _ Fk F1)|].
      intros q y ((t & m & Mo) & (r & Hh & T)). split; [eauto|]. intros t' m' Mo'. exists r. split; [exact (record_of_made _ _ _ _ _ _ _ Mo' Hh)|exact T].
    + intros q Iq. destruct (Mk q Iq) as (t & m & Mo). apply hidden_known. exact (made_header _ _ _ _ _ Mo).
Qed.
Print Assumptions C77_lines.

(** The same for csvtool's tables: the rows of the connection's files, one file
    after the other, are its reports that were new or changed, in order. *)
Theorem C77_table : forall lib args env st, distinct lib -> main_flags lib args env = Goes st ->
  forall w cap zone zone' blanks v on marshal z unz k0 g k, 1 <= cap -> (forall x, unz (z x) = x) ->
  run_of w (main_cf st) cap (main_anon (f_anon st)) (json_line zone) (header_line zone) v (f_reps st) on marshal z k0 (g, k) ->
  g_main g = MExit -> usual zone w (main_cf st) (g_sent g) -> Forall (writable_time zone') (1243641599000000000%Z :: block_times (g_sent g)) ->
  exists rs qs, recorded (main_cf st) (g_sent g) rs /\ qs `sublist_of` rs /\ (io_ok w -> qs = rs) /\
  forall cookie, (cookie < 2 ^ 64)%N -> exists fs : list (bytes * list (list bytes)),
    (forall i p rows, fs !! i = Some (p, rows) -> file_table_with (to_csv zone' blanks) unz k (uuid_prefix w) cookie i p rows) /\
    (forall p n, d_file k p <> k0 p -> named_for (uuid_prefix w) cookie n p -> p ∈ fs.*1) /\
    Forall2 (fun q row => (exists t m, made_of (main_cf st) (g_sent g) q t m) /\ forall t m, made_of (main_cf st) (g_sent g) q t m -> row_of (main_anon (f_anon st)) t m row)
      (List.filter known_family (of_connection cookie qs)) (concat fs.*2).
Proof.
  intros lib args env st Hd Hg w cap zone zone' blanks v on marshal z unz k0 g k Hcap Hz Hr Hm Hu Hz'.
  destruct (C77_recorded w (main_cf st) (cf_marsh st) (u_order _ _ _ _ Hu) (g_sent g) (u_parses _ _ _ _ Hu) (u_comparable _ _ _ _ Hu)) as (rs & Rr & Sr & Er & _).
  exists rs, (queued (log_of w (main_cf st) (g_sent g))). split; [exact Rr|]. split; [exact Sr|]. split; [exact Er|]. intros cookie Hk. change (2 ^ 64)%N with two64 in Hk.
  apply (gather st w cap zone v on marshal z k0 g k Hr Hm Hu); [exact Hk|]. intros i wr md E.
  destruct (files_by_number w (main_cf st) (g_sent g) cookie Hk (u_once _ _ _ _ Hu) i wr md E) as (p & Ic & Nf & _).
  destruct (file_table st w cap zone zone' blanks v on marshal z k0 g k Hcap Hr Hm Hu Hz' wr p Ic) as (c & x & out & row0 & rows & D & -> & Pr & Tt & M & F).
  exists p, rows. split; [exact Ic|]. split; [|exact F]. split; [exact Nf|]. exists (z x), out, row0. rewrite Hz. by auto.
Qed.
Print Assumptions C77_table.

(** ** Cases *)
(** Four polls with clock readings far apart: four files with one record each; and a
    poll between that reports another connection. *)
Definition bs_two : list block := [blk 1 [conn_msg 7 1 1; conn_msg 8 1 1]; blk 2 [conn_msg 7 1 2; conn_msg 8 1 1]; blk 3 [conn_msg 7 1 3; conn_msg 8 1 5]; blk 4 [conn_msg 7 1 4]].
Example c77_case : let l := log_of w_slow cf0 bs_two in
  NoDup (openings l) /\ io_ok w_slow /\ fair_order w_slow /\ Forall (parses cf0) bs_two /\ all_comparable cf0 bs_two /\
  map (fun f => (f.1, md_seq f.2, length (queued (file_actions f.1 l)))) (files_of (uuid_prefix w_slow) 7 l) = [(0, 0%Z, 1); (2, 1%Z, 1); (3, 2%Z, 1); (5, 3%Z, 1)] /\
  map (fun f => (f.1, md_seq f.2, length (queued (file_actions f.1 l)))) (files_of (uuid_prefix w_slow) 8 l) = [(1, 0%Z, 1); (4, 1%Z, 1)] /\
  length (of_connection 7 (queued l)) = 4 /\ length (queued l) = 6.
Proof.
  cbv zeta. split; [apply (bool_decide_unpack _); vm_compute; exact I|]. split; [apply w0_io|]. split; [apply w0_fair|].
  split; [apply message_ok; vm_compute; reflexivity|]. split; [apply message_ok; vm_compute; reflexivity|]. vm_compute. auto.
Qed.
(** Of the whole program the case is that of C73 and C76 (c73_case, c76_case); in it
    connection 7 has one file with two records. *)
Example c77_disk_case : let l := log_of w0 (main_cf set2) sent2 in
  map (fun f => (f.1, md_seq f.2, length (queued (file_actions f.1 l)))) (files_of (uuid_prefix w0) 7 l) = [(0, 0%Z, 2)] /\
  length (List.filter known_family (of_connection 7 (queued l))) = 2.
Proof. vm_compute. auto. Qed.
(** A connection that is missing from one poll starts from 0 again. *)
Theorem C77_numbers_refuted : exists w cf bs, io_ok w /\ 1 <= nmarsh cf /\ fair_order w /\ Forall (parses cf) bs /\ all_comparable cf bs /\
  map (fun f => md_seq f.2) (files_of (uuid_prefix w) 7 (log_of w cf bs)) = [0; 0]%Z.
Proof.
  exists w0, cf0, [blk 1 [conn_msg 7 10 20]; blk 2 []; blk 3 [conn_msg 7 10 20]].
  split; [apply w0_io|]. split; [cbn; lia|]. split; [apply w0_fair|].
  split; [apply message_ok; vm_compute; reflexivity|]. split; [apply message_ok; vm_compute; reflexivity|].
  vm_compute. reflexivity.
Qed.
Print Assumptions C77_numbers_refuted.
