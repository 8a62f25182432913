(** C71: what the files tell about addresses. *)
From Coq Require Import Strings.String.
From stdpp Require Import gmap relations.
From Coq Require Import NArith ZArith Lia ZifyN ZifyNat ZifyBool.
From Verif Require Import GoBase GoBaseFacts GoTime NetIP Inetdiag Netlink SpecNetlink SpecCompare RecordFacts Cache Saver SpecSaver SaverReports
  System SpecSystem SystemInv SystemFiles SystemRefine SystemEnd SystemHidden SaverHeld Samples P_Saver P_System Program SpecProgram P_Program
  MainConfig Flags SpecFlags FlagMain P_Flags Anonymizer SpecPrivacy PrivacyFacts IPTextFacts.
Local Open Scope list_scope.

(** ** The anonymizer *)
Lemma netblock_len x : length (netblock_ip x) = length x.
Proof.
  unfold netblock_ip. destruct (to4 x) eqn:E.
  - assert (length x <> 0) by (destruct x; [discriminate E | cbn; lia]). rewrite app_length, firstn_length. cbn [length]. lia.
  - destruct (Nat.eqb_spec (length x) 16) as [L|L]; [|done]. rewrite app_length, firstn_length, repeat_length. lia.
Qed.
Lemma main_anon_len m x : length (main_anon m x) = length x.
Proof. destruct m; [done | apply netblock_len]. Qed.
Lemma nthb_app_l i (a b : bytes) : i < length a -> nthb i (a ++ b) = nthb i a.
Proof. intros H. unfold nthb. by rewrite app_nth1. Qed.
Lemma nthb_firstn i n (x : bytes) : i < n -> nthb i (firstn n x) = nthb i x.
Proof.
  intros H. unfold nthb. f_equal. revert i x H. induction n as [|n IH]; intros [|i] [|y x] H; cbn; try done; try lia. apply IH. lia.
Qed.
Lemma mapped_first k (x y : bytes) : 12 <= k -> firstn k x = firstn k y -> v4_mapped x -> v4_mapped y.
Proof.
  intros K E (A & B & C). assert (N : forall i, i < k -> nthb i y = nthb i x).
  { intros i H. rewrite <- (nthb_firstn i k x), <- (nthb_firstn i k y), E by lia. reflexivity. }
  split; [intros i H; rewrite N by lia; by apply A|]. rewrite !N by lia. auto.
Qed.
Lemma last_split n (x : bytes) : length x = S n -> exists b, x = firstn n x ++ [b].
Proof.
  intros L. pose proof (firstn_skipn n x) as E. assert (K : length (skipn n x) = 1) by (rewrite skipn_length; lia).
  destruct (skipn n x) as [|b [|? ?]]; try discriminate K. exists b. by rewrite E.
Qed.
Lemma app_last (a b : bytes) (u v : byte) : a ++ [u] = b ++ [v] -> a = b.
Proof. intros H. by apply app_inj_tail in H as [-> _]. Qed.
Lemma zeros8 : repeat x00 8 = [x00; x00; x00; x00; x00; x00; x00; x00]. Proof. reflexivity. Qed.

(** An address becomes that of its network, and addresses of different networks
    stay different. *)
Theorem C71_netblock : forall x y, length x = 4 \/ length x = 16 -> length y = length x ->
  (netblock_ip x = netblock_ip y <-> same_network x y).
Proof.
  intros x y Lx Ly. assert (T4 : forall z, length z = 4 -> to4 z = Some z) by (intros z Lz; unfold to4; by rewrite Lz).
  destruct Lx as [Lx|Lx].
  - unfold netblock_ip. rewrite (T4 x Lx), (T4 y) by lia. rewrite Lx, Ly, Lx. cbn [Nat.sub]. split.
    + intros H. apply app_last in H. destruct (last_split 3 x Lx) as (a & Ea), (last_split 3 y ltac:(lia)) as (b & Eb). rewrite Ea, Eb, H.
      constructor. rewrite firstn_length. lia.
    + intros H. inversion H as [net a b Ln|net a b Ln M|net a b Ln La Lb M1 M2]; subst; rewrite ?app_length in *; cbn [length] in *; try lia.
      rewrite !firstn_app, !firstn_all2 by lia. rewrite Ln. reflexivity.
  - assert (Ly16 : length y = 16) by lia.
    assert (MP : forall z, length z = 16 -> v4_mapped z -> netblock_ip z = firstn 15 z ++ [x00]).
    { intros z Lz M. unfold netblock_ip. apply (to4_mapped z Lz) in M. destruct (to4 z); [by rewrite Lz | done]. }
    assert (NM : forall z, length z = 16 -> ~ v4_mapped z -> netblock_ip z = firstn 8 z ++ repeat x00 8).
    { intros z Lz M. unfold netblock_ip. destruct (to4 z) eqn:E; [|by rewrite Lz]. exfalso. apply M. apply (to4_mapped z Lz). congruence. }
    assert (DEC : forall z, length z = 16 -> v4_mapped z \/ ~ v4_mapped z).
    { intros z Lz. rewrite <- (to4_mapped z Lz). destruct (to4 z); [left; done | right; intros K; by apply K]. }
    assert (DIFF : forall u v, length u = 16 -> length v = 16 -> v4_mapped u -> ~ v4_mapped v -> netblock_ip u <> netblock_ip v).
    { intros u v Lu Lv Mu Mv H. rewrite (MP u Lu Mu), (NM v Lv Mv) in H. apply (f_equal (nthb 10)) in H.
      destruct Mu as (_ & Mu & _). rewrite nthb_app_l, nthb_firstn, Mu in H by (rewrite ?firstn_length; lia).
      unfold nthb in H. rewrite app_nth2 in H by (rewrite firstn_length; lia). rewrite firstn_length, Lv in H. vm_compute in H. discriminate H. }
    split.
    + intros H. destruct (DEC x Lx) as [Mx|Mx], (DEC y Ly16) as [My|My].
      * rewrite (MP x Lx Mx), (MP y Ly16 My) in H. apply app_last in H. destruct (last_split 15 x Lx) as (a & Ea), (last_split 15 y Ly16) as (b & Eb).
        rewrite Ea in Mx. rewrite Ea, Eb, <- H. constructor; [rewrite firstn_length; lia | exact Mx].
      * by apply DIFF in H.
      * symmetry in H. by apply DIFF in H.
      * rewrite (NM x Lx Mx), (NM y Ly16 My) in H. apply app_inv_tail in H. rewrite <- (firstn_skipn 8 x) in Mx. rewrite <- (firstn_skipn 8 y) in My. rewrite <- H in My.
        rewrite <- (firstn_skipn 8 x), <- (firstn_skipn 8 y), <- H. constructor; [rewrite firstn_length; lia | rewrite skipn_length; lia | rewrite skipn_length; lia | exact Mx | exact My].
    + intros H. inversion H as [net a b Ln|net a b Ln M|net a b Ln La Lb M1 M2]; subst; rewrite ?app_length in *; cbn [length] in *; try lia.
      * assert (F : forall c, firstn 15 (net ++ [c]) = net) by (intros c; rewrite firstn_app, firstn_all2 by lia; rewrite Ln; apply app_nil_r).
        rewrite (MP (net ++ [a])), (MP (net ++ [b])), !F; try done; try (rewrite app_length; cbn [length]; lia).
        apply (mapped_first 15 (net ++ [a])); [lia | by rewrite !F | exact M].
      * assert (F : forall c, firstn 8 (net ++ c) = net) by (intros c; rewrite firstn_app, firstn_all2 by lia; rewrite Ln; apply app_nil_r).
        rewrite (NM (net ++ a)), (NM (net ++ b)), !F; try done; rewrite app_length; lia.
Qed.
Print Assumptions C71_netblock.

(** ** The saver *)

(** For two histories that are alike up to what the anonymizer takes away, and
    whose messages are excluded alike, all that the saver does is the same but for
    addresses: which records it queues and where, files and their names, metrics,
    times and cookies of the events. *)
Theorem C71_saver : forall anon w cf bs bs', (forall x, length (anon x) = length x) -> Forall2 (alike_blocks anon (excl cf)) bs bs' ->
  map (veiled anon) (s_log (message_saver_loop w cf bs)) = map (veiled anon) (s_log (message_saver_loop w cf bs')).
Proof. intros anon w cf bs bs' Hl F. exact (log_same anon Hl w cf bs bs' F). Qed.
Print Assumptions C71_saver.

(** The files are the same, under every schedule. *)
Theorem C71_files : forall w cf anon line hline bs bs', (forall x, length (anon x) = length x) -> 1 <= nmarsh cf ->
  all_comparable cf bs -> Forall2 (alike_blocks anon (excl cf)) bs bs' ->
  forall cap cap' y y', reachable w cf cap anon line hline bs y -> reachable w cf cap' anon line hline bs' y' ->
  finished y -> finished y' -> y_files y = y_files y'.
Proof.
  intros w cf anon line hline bs bs' Hl Hn Hc F cap cap' y y' R R' E E'.
  destruct (C28_final w cf cap anon line hline Hl Hn bs Hc y R E) as [_ A].
  destruct (C28_final w cf cap' anon line hline Hl Hn bs' (all_comparable_same anon Hl cf bs bs' F Hc) y' R' E') as [_ A'].
  apply map_eq. intros wr. rewrite A, A'. apply final_same; [exact Hl|]. by apply C71_saver.
Qed.
Print Assumptions C71_files.

Lemma created_unique wr p p' l : NoDup (SpecHeld.creations l) -> ACreate wr p ∈ l -> ACreate wr p' ∈ l -> p = p'.
Proof.
  induction l as [|a l IH]; intros N H H'; [by apply elem_of_nil in H|].
  assert (D : forall x q, a = ACreate x q -> x ∉ SpecHeld.creations l /\ NoDup (SpecHeld.creations l)) by (intros x q ->; cbn in N; by apply NoDup_cons in N).
  assert (N' : NoDup (SpecHeld.creations l)) by (destruct a; try exact N; by destruct (D _ _ eq_refl)).
  apply elem_of_cons in H, H'. destruct H as [<-|H], H' as [E'|H']; [by injection E' | | | by apply IH].
  - destruct (D _ _ eq_refl) as [F _]. destruct F. apply creations_in. eauto.
  - destruct (D _ _ (eq_sym E')) as [F _]. destruct F. apply creations_in. eauto.
Qed.

(** At every moment of both executions: a file of one and the file of the other
    with the same number have the same path, and one is a beginning of the other. *)
Theorem C71_meanwhile : forall w cf anon line hline bs bs', (forall x, length (anon x) = length x) -> 1 <= nmarsh cf ->
  all_comparable cf bs -> Forall2 (alike_blocks anon (excl cf)) bs bs' ->
  forall cap cap' y y', reachable w cf cap anon line hline bs y -> reachable w cf cap' anon line hline bs' y' ->
  forall wr f f', y_files y !! wr = Some f -> y_files y' !! wr = Some f' ->
  f_path f = f_path f' /\ exists rest, f_data f = f_data f' ++ rest \/ f_data f' = f_data f ++ rest.
Proof.
  intros w cf anon line hline bs bs' Hl Hn Hc F cap cap' y y' R R' wr f f' E E'.
  destruct (C28_prefix w cf cap anon line hline Hl Hn bs Hc y R wr f E) as (A & rest & B).
  destruct (C28_prefix w cf cap' anon line hline Hl Hn bs' (all_comparable_same anon Hl cf bs bs' F Hc) y' R' wr f' E') as (A' & rest' & B').
  pose proof (C71_saver anon w cf bs bs' Hl F) as L. split.
  - apply (created_veiled anon wr _ _ _ L) in A. eapply created_unique; [|exact A | exact A']. apply (creations_nodup w cf). apply SaverSteps.message_saver_loop_steps.
  - rewrite (contents_same anon line hline Hl wr _ _ L) in B. rewrite B in B'. apply app_eq_inv in B'. destruct B' as [(k & X & _)|(k & X & _)]; exists k; auto.
Qed.
Print Assumptions C71_meanwhile.

(** ** The program *)

Lemma hosts_alike m m' : same_but_hosts m m' -> alike netblock_ip m m'.
Proof.
  intros (Hh & Hs & Hl & Hf & Hk & Hc). unfold alike. repeat (split; [assumption|]).
  assert (A72 : forall o n (l : bytes), o + n <= 72 -> at_ o n (firstn 72 l) = at_ o n l) by (intros; by apply RecordFacts.at_firstn).
  assert (AL : forall o n (l : bytes), o + n <= length l -> length (at_ o n l) = n) by (intros o n l K; unfold at_; rewrite firstn_length, skipn_length; lia).
  assert (Fam : hdr_family (data_of m) = hdr_family (data_of m')) by (exact (family_first netblock_ip netblock_len _ _ Hf)).
  assert (SK : forall n, skipn (40 + n) (data_of m) = skipn (40 + n) (data_of m')) by (intros n; rewrite <- !drop_drop; by rewrite Hk).
  assert (FR : forall l : bytes, hdr_family (firstn 72 l) = hdr_family l) by (intros l; unfold hdr_family; by rewrite A72 by lia).
  assert (RAW : 72 <= length (data_of m) -> length (raw_of m) = 72 /\ length (raw_of m') = 72) by (intros L; unfold raw_of; rewrite !firstn_length; lia).
  assert (F8 : at_ 0 8 (data_of m) = at_ 0 8 (data_of m')) by (unfold at_; cbn [skipn]; exact Hf).
  assert (S40 : skipn 40 (raw_of m) = skipn 40 (raw_of m')) by (unfold raw_of; rewrite !skipn_firstn_comm; by rewrite Hk).
  split; intros L; destruct (RAW L) as [R1 R2].
  - unfold hidden_header. rewrite R1, R2. cbn [Nat.ltb Nat.leb].
    destruct Hc as [E|[(E & N1 & N2)|(E & N1 & E1 & N2 & E2)]].
    + unfold raw_of. by rewrite E.
    + assert (E' : hdr_family (raw_of m) = 10%N) by (unfold raw_of; rewrite FR; exact E). assert (E'' : hdr_family (raw_of m') = 10%N) by (unfold raw_of; rewrite FR; congruence).
      unfold raw_of in *. rewrite E', E''. cbn. rewrite S40, !A72, F8 by lia.
      apply C71_netblock in N1, N2; rewrite ?AL by lia; try lia. by rewrite N1, N2.
    + assert (E' : hdr_family (raw_of m) = 2%N) by (unfold raw_of; rewrite FR; exact E). assert (E'' : hdr_family (raw_of m') = 2%N) by (unfold raw_of; rewrite FR; congruence).
      unfold raw_of in *. rewrite E', E''. cbn [N.eqb Pos.eqb]. rewrite !A72, F8 by lia.
      apply C71_netblock in N1, N2; rewrite ?AL by lia; try lia. rewrite N1, N2, E1.
      assert (S28 : skipn 28 (firstn 72 (data_of m)) = skipn 28 (firstn 72 (data_of m'))).
      { rewrite <- (firstn_skipn 12 (skipn 28 (firstn 72 (data_of m)))), <- (firstn_skipn 12 (skipn 28 (firstn 72 (data_of m')))), !drop_drop. cbn [Nat.add].
        rewrite S40. f_equal. change (at_ 28 12 (firstn 72 (data_of m)) = at_ 28 12 (firstn 72 (data_of m'))). rewrite !A72 by lia. exact E2. }
      by rewrite S28.
  - intros H. destruct Hc as [E|[(E & N1 & N2)|(E & N1 & E1 & N2 & E2)]]; [unfold raw_of; by rewrite E| |];
      exfalso; unfold hidden_header in H; rewrite R1 in H; cbn [Nat.ltb Nat.leb] in H; unfold raw_of in H; rewrite FR, E in H; cbn in H; discriminate H.
Qed.
Lemma networks_alike ex b b' : network_only ex b b' -> alike_blocks netblock_ip ex b b'.
Proof.
  intros (T4 & T6 & M4 & M6). split; [exact T4|]. split; [exact T6|].
  assert (G : forall l l', Forall2 (fun m m' => match m, m' with None, None => True | Some m, Some m' => same_but_hosts m m' /\ (make_archival_record m ex = Ret None <-> make_archival_record m' ex = Ret None) | _, _ => False end) l l' ->
    Forall2 (treated_alike netblock_ip ex) l l').
  { intros l l' F. eapply Forall2_impl; [exact F|]. intros [m|] [m'|] H; try done. destruct H as [H1 H2]. split; [by apply hosts_alike | exact H2]. }
  split; by apply G.
Qed.

Lemma netblock_asked lib args env st occ su before : distinct lib -> main_flags lib args env = Goes st -> command lib args occ ->
  texts occ env (str "anonymize.ip") (str "ANONYMIZE_IP") su (before ++ [str "netblock"]) -> f_anon st = MNetblock.
Proof.
  intros D H C T. destruct (asked_anon _ _ _ (C70_asked lib args env st occ D H C)) as (su' & ts & T' & M).
  assert (ts = before ++ [str "netblock"]) as ->.
  { destruct T as (vs & V & X), T' as (vs' & V' & X'). apply values_vals in V, V'. subst vs'. rewrite <- V in X'.
    destruct X as [(N & _ & E)|(N & _ & E)], X' as [(N' & _ & E')|(N' & _ & E')]; congruence. }
  destruct M as [(E & _)|(b & t & E & M)]; [by apply app_nil in E as [_ E]|]. apply app_inj_tail in E as [_ <-].
  destruct M as [[E|[E|[]]]|(N & _)]; [discriminate E | injection E as E; congruence | exfalso; apply (N MNetblock); right; left; reflexivity].
Qed.

(** If the last -anonymize.ip of the command line is netblock, or there is none and
    the variable is netblock: two runs of the program whose kernels report the same
    connections but for hosts in the same networks, all excluded alike, leave the
    same files. *)
Theorem C71_main : forall lib args env st occ su before, distinct lib -> main_flags lib args env = Goes st -> command lib args occ ->
  texts occ env (str "anonymize.ip") (str "ANONYMIZE_IP") su (before ++ [str "netblock"]) ->
  let cf := mkconfig 3 (Some (main_config (f_ips st) (f_ports st))) in
  forall w line hline on marshal cap v g cap' v' g', fair_order w ->
  possible w cf cap (main_anon (f_anon st)) line hline v (f_reps st) on marshal g -> g_main g = MExit ->
  possible w cf cap' (main_anon (f_anon st)) line hline v' (f_reps st) on marshal g' -> g_main g' = MExit ->
  all_comparable cf (g_sent g) -> Forall (parses cf) (g_sent g) -> Forall2 (network_only (excl cf)) (g_sent g) (g_sent g') ->
  y_files (g_sys g) = y_files (g_sys g').
Proof.
  intros lib args env st occ su before D G C T cf w line hline on marshal cap v g cap' v' g' Hf P M P' M' Hc Hp Hs.
  rewrite (netblock_asked lib args env st occ su before D G C T) in *. cbn [main_anon] in *.
  assert (F : Forall2 (alike_blocks netblock_ip (excl cf)) (g_sent g) (g_sent g')) by (eapply Forall2_impl; [exact Hs|]; intros b b'; apply networks_alike).
  assert (Hn : 1 <= nmarsh cf) by (cbn; lia).
  destruct (C55_files w cf cap netblock_ip line hline v (f_reps st) on marshal netblock_len Hn g P M Hf Hc Hp) as [A _].
  destruct (C55_files w cf cap' netblock_ip line hline v' (f_reps st) on marshal netblock_len Hn g' P' M' Hf
    (all_comparable_same _ netblock_len cf _ _ F Hc) (parses_same _ cf _ _ F Hp)) as [A' _].
  apply map_eq. intros wr. rewrite A, A'. apply final_same; [exact netblock_len|]. apply C71_saver; [exact netblock_len | exact F].
Qed.
Print Assumptions C71_main.

(** ** Other channels *)

(** Connection k between other hosts of the same networks *)
Definition neighbour_msg (k sent recv : N) : nlmsg :=
  sample_msg (sample_hdr 2 1 443 5000 (v4 10 0 0 200) (v4 192 0 2 99) k ++ sample_attr 2 (sample_info sent recv)).
Definition bs1 : list block :=
  [blk 1 [neighbour_msg 7 10 20]; blk 2 [neighbour_msg 7 10 20]; blk 3 [neighbour_msg 7 10 90; neighbour_msg 8 1 1]; blk 4 [neighbour_msg 8 1 1]].
Lemma neighbours k a b : same_but_hosts (conn_msg k a b) (neighbour_msg k a b).
Proof.
  assert (E : forall x y : bytes, data_of (sample_msg (x ++ y)) = x ++ y) by reflexivity.
  unfold same_but_hosts, conn_msg, neighbour_msg. rewrite !E. split; [|split; [reflexivity|]].
  - unfold sample_msg. cbn [m_header]. rewrite !app_length. reflexivity.
  - set (t := sample_attr 2 (sample_info a b)). unfold sample_hdr. split; [rewrite !app_length; reflexivity|]. split; [reflexivity|]. split; [reflexivity|].
    right. right. split; [reflexivity|]. split; [apply (sn_v4 [byte_of 10; byte_of 0; byte_of 0]); reflexivity|]. split; [reflexivity|].
    split; [apply (sn_v4 [byte_of 192; byte_of 0; byte_of 2]); reflexivity | reflexivity].
Qed.
Lemma neighbours_ok : Forall2 (network_only None) bs0 bs1.
Proof.
  assert (G : forall k a b, same_but_hosts (conn_msg k a b) (neighbour_msg k a b) /\
    (make_archival_record (conn_msg k a b) None = Ret None <-> make_archival_record (neighbour_msg k a b) None = Ret None)).
  { intros k a b. split; [apply neighbours|]. rewrite !make_ret_none_iff. split; intros (_ & _ & e & X & _); discriminate X. }
  unfold bs0, bs1. repeat (constructor; [split; [reflexivity|]; split; [reflexivity|]; split; [|constructor]; cbn [V4Messages blk map]; repeat (constructor; [apply G|]); constructor|]). constructor.
Qed.
(** The two histories are different, and their files are the same. *)
Example neighbours_files : bs0 <> bs1 /\
  s_log (message_saver_loop w0 cf0 bs0) <> s_log (message_saver_loop w0 cf0 bs1) /\
  forall wr, final_file netblock_ip line0 hline0 wr (s_log (message_saver_loop w0 cf0 bs0)) = final_file netblock_ip line0 hline0 wr (s_log (message_saver_loop w0 cf0 bs1)).
Proof.
  split; [intros E; apply (f_equal (fun l => match l with b :: _ => match V4Messages b with Some m :: _ => nthb 11 (data_of m) | _ => 0%N end | _ => 0%N end)) in E; vm_compute in E; discriminate E|].
  split.
  - intros E. apply (f_equal (fun l => List.map (fun a => match a with AOpen _ _ id => sid_src id | _ => [] end) l)) in E. vm_compute in E. discriminate E.
  - intros wr. apply final_same; [exact netblock_len|]. apply C71_saver; [exact netblock_len|]. eapply Forall2_impl; [exact neighbours_ok|]. intros b b'. apply networks_alike.
Qed.
Example neighbours_netblock : same_network (firstn 4 (v4 10 0 0 1)) (firstn 4 (v4 10 0 0 200)) /\ ~ same_network (firstn 4 (v4 10 0 0 1)) (firstn 4 (v4 10 0 1 1)) /\
  netblock_ip (firstn 4 (v4 10 0 0 1)) = firstn 4 (v4 10 0 0 0).
Proof.
  split; [apply (sn_v4 [byte_of 10; byte_of 0; byte_of 0]); reflexivity|]. split; [|reflexivity].
  intros H. apply C71_netblock in H; [|left; reflexivity | reflexivity]. vm_compute in H. discriminate H.
Qed.

(** The clients of the event socket are told the addresses as they are. *)
Theorem C71_events_refuted : ~ (forall w cf bs bs', fair_order w -> Forall2 (network_only (excl cf)) bs bs' ->
  reports (uuid_prefix w) (s_log (message_saver_loop w cf bs)) = reports (uuid_prefix w) (s_log (message_saver_loop w cf bs'))).
Proof.
  intros H. specialize (H w0 cf0 bs0 bs1 (w0_fair _) neighbours_ok). vm_compute in H. discriminate H.
Qed.
Print Assumptions C71_events_refuted.

(** Whether a connection is excluded is decided on the whole address, so the files
    can tell hosts of one network apart if only some of them are excluded. *)
Theorem C71_exclusion_refuted : ~ (forall w cf bs bs' line hline wr, fair_order w -> all_comparable cf bs -> all_comparable cf bs' ->
  Forall2 (fun b b' => V4Time b = V4Time b' /\ V6Time b = V6Time b' /\ V6Messages b = V6Messages b' /\
    Forall2 (fun m m' => exists x y, m = Some x /\ m' = Some y /\ same_but_hosts x y) (V4Messages b) (V4Messages b')) bs bs' ->
  final_file netblock_ip line hline wr (s_log (message_saver_loop w cf bs)) = final_file netblock_ip line hline wr (s_log (message_saver_loop w cf bs'))).
Proof.
  intros H. specialize (H w0 (mkconfig 3 (Some (main_config [str "192.0.2.7"] []))) [blk 1 [conn_msg 7 10 20]] [blk 1 [neighbour_msg 7 10 20]] line0 hline0 0 (w0_fair _)).
  assert (X : forall l, forallb (message_okb (mkconfig 3 (Some (main_config [str "192.0.2.7"] [])))) l = true -> all_comparable (mkconfig 3 (Some (main_config [str "192.0.2.7"] []))) l) by (intros l Hl; by apply message_ok).
  specialize (H ltac:(apply X; vm_compute; reflexivity) ltac:(apply X; vm_compute; reflexivity)).
  assert (F : Forall2 (fun b b' => V4Time b = V4Time b' /\ V6Time b = V6Time b' /\ V6Messages b = V6Messages b' /\
    Forall2 (fun m m' => exists x y, m = Some x /\ m' = Some y /\ same_but_hosts x y) (V4Messages b) (V4Messages b')) [blk 1 [conn_msg 7 10 20]] [blk 1 [neighbour_msg 7 10 20]]).
  { constructor; [|constructor]. do 3 (split; [reflexivity|]). constructor; [|constructor]. eexists _, _. split; [reflexivity|]. split; [reflexivity|]. apply neighbours. }
  specialize (H F). vm_compute in H. discriminate H.
Qed.
Print Assumptions C71_exclusion_refuted.

(** A case of [C71_main]: the whole program with -anonymize.ip=netblock, run on two
    machines. *)
Definition args1 : list bytes := [str "-reps=4"; str "-anonymize.ip=netblock"].
Definition set1 : settings := mkset 4 false [] [] [] [] MNetblock.
Definition cf1 : config := mkconfig 3 (Some (main_config [] [])).
Definition kernel1 (n : nat) : list nlmsg :=
  match n with 0 => [neighbour_msg 7 10 20] | 1 => [neighbour_msg 7 10 20] | 2 => [neighbour_msg 7 10 90; neighbour_msg 8 1 1] | _ => [neighbour_msg 8 1 1] end.
Definition v_of (k : nat -> list nlmsg) : Collector.environment :=
  Collector.mkenv (fun n f => Collector.mksocket None (fun _ => None) (Ret 99%N) [Ret ((if N.eqb f 2 then map multi (k n) else []) ++ [finis])])
    (fun _ _ => 7%N) (fun n _ => ((1577836800 + Z.of_nat n) * second)%Z) (fun _ => false).
Definition run1 (k : nat -> list nlmsg) : prog :=
  ProgramRuns.play w0 cf1 1 netblock_ip line0 hline0 (v_of k) 4 false (fun _ => None) [(2000, workers)].
Definition sent1 (k : nat -> list nlmsg) : list block :=
  map (fun n => mkblock ((1577836800 + Z.of_nat n) * second) ((1577836800 + Z.of_nat n) * second) (map (fun m => Some (multi m)) (k n)) []) (seq 0 4).
Example main_case : main_flags [] args1 (fun _ => None) = Goes set1 /\
  (exists occ su before, command [] args1 occ /\ texts occ (fun _ => None) (str "anonymize.ip") (str "ANONYMIZE_IP") su (before ++ [str "netblock"])) /\
  possible w0 cf1 1 netblock_ip line0 hline0 (v_of kernel) 4 false (fun _ => None) (run1 kernel) /\ g_main (run1 kernel) = MExit /\
  possible w0 cf1 1 netblock_ip line0 hline0 (v_of kernel1) 4 false (fun _ => None) (run1 kernel1) /\ g_main (run1 kernel1) = MExit /\
  all_comparable cf1 (g_sent (run1 kernel)) /\ Forall (parses cf1) (g_sent (run1 kernel)) /\
  Forall2 (network_only (excl cf1)) (g_sent (run1 kernel)) (g_sent (run1 kernel1)) /\ is_Some (y_files (g_sys (run1 kernel)) !! 1).
Proof.
  split; [reflexivity|]. split.
  - exists [(str "reps", str "4"); (str "anonymize.ip", str "netblock")], true, []. split.
    + exists args1, []. split; [reflexivity|]. split; [|split; [by left|]].
      * apply (sp_value _ (str "-reps=4") (str "reps") (str "4") false); [| left; exists (str "REPS"); by left|].
        { exists (str "-"). split; [by left|]. repeat split; cbn; intuition discriminate. }
        apply (sp_value _ (str "-anonymize.ip=netblock") (str "anonymize.ip") (str "netblock") false); [| left; exists (str "ANONYMIZE_IP"); cbn; auto 10 | constructor].
        exists (str "-"). split; [by left|]. repeat split; cbn; intuition discriminate.
      * repeat constructor; cbn [fst snd]; try (intros E; discriminate E); try (intros b acc []).
        -- intros _. exists 4%Z. split; [|lia]. exists [], (str "4"), 4%N. split; [done|]. split; [|by left; split; [left|]].
           apply (li_decimal _ 4); [unfold SpecConfig.decimal_digit; vm_compute; intuition discriminate | discriminate | reflexivity | constructor].
        -- intros _. exists MNetblock. cbn. auto.
    + eexists. split; [apply vo_other; [discriminate|]; apply vo_this, vo_nil|]. left. by split; [discriminate|].
  - split; [apply ProgramRuns.play_possible|]. split; [vm_compute; reflexivity|]. split; [apply ProgramRuns.play_possible|]. split; [vm_compute; reflexivity|].
    assert (E : g_sent (run1 kernel) = sent1 kernel) by (vm_compute; reflexivity). assert (E1 : g_sent (run1 kernel1) = sent1 kernel1) by (vm_compute; reflexivity).
    rewrite E, E1. destruct (message_ok cf1 (sent1 kernel) ltac:(vm_compute; reflexivity)) as [A B]. split; [exact B|]. split; [exact A|]. split.
    + assert (G : forall k a b, same_but_hosts (multi (conn_msg k a b)) (multi (neighbour_msg k a b))).
      { intros k a b. destruct (neighbours k a b) as (H & R). split; [unfold multi; cbn [m_header]; by rewrite H | exact R]. }
      unfold sent1. cbn [seq map].
      assert (N : forall t u ms ms', Forall2 (fun m m' => same_but_hosts m m' /\ (make_archival_record m (excl cf1) = Ret None <-> make_archival_record m' (excl cf1) = Ret None)) ms ms' ->
                  network_only (excl cf1) (mkblock t u (map Some ms) []) (mkblock t u (map Some ms') [])).
      { intros t u ms ms' F. split; [done|]. split; [done|]. split; [|constructor]. cbn [V4Messages]. induction F; cbn [map]; constructor; auto. }
      repeat (apply Forall2_cons; split; [|]); [..|constructor].
      1: apply (N _ _ [multi (conn_msg 7 10 20)] [multi (neighbour_msg 7 10 20)]).
      2: apply (N _ _ [multi (conn_msg 7 10 20)] [multi (neighbour_msg 7 10 20)]).
      3: apply (N _ _ [multi (conn_msg 7 10 90); multi (conn_msg 8 1 1)] [multi (neighbour_msg 7 10 90); multi (neighbour_msg 8 1 1)]).
      4: apply (N _ _ [multi (conn_msg 8 1 1)] [multi (neighbour_msg 8 1 1)]).
      all: repeat (apply Forall2_cons; split; [split; [apply G | split; intros X; vm_compute in X; discriminate X]|]); constructor.
    + vm_compute. eexists. reflexivity.
Qed.
