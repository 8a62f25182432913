(** The flags of main.go: what a command line and an environment make of them. *)
From Coq Require Import Strings.String List NArith ZArith Bool Lia.
From Verif Require Import GoBase GoBaseFacts NetIP SpecConfig Flags SpecFlags FlagNumbers FlagFacts.
Import ListNotations.
Local Open Scope list_scope.

Lemma bytes_neqb a b : a <> b -> bytes_eqb a b = false.
Proof. intros N. destruct (bytes_eqb a b) eqn:E; [apply bytes_eqb_eq in E; congruence | reflexivity]. Qed.
Lemma spells_impl (k1 k2 : bytes -> bool -> Prop) : (forall n b, k1 n b -> k2 n b) -> forall pre occ, spells k1 pre occ -> spells k2 pre occ.
Proof. intros H pre occ Sp. induction Sp; [constructor | econstructor 2; eauto | econstructor 3; eauto | econstructor 4; eauto]. Qed.
Lemma spells_known k pre occ : spells k pre occ -> Forall (fun nv => exists b, k (fst nv) b) occ.
Proof. intros Sp. induction Sp; constructor; eauto. Qed.
Lemma nodup_app_r {A} (l m : list A) : NoDup (l ++ m) -> NoDup m.
Proof. induction l as [|x l IH]; [auto|]. intros H. inversion H; auto. Qed.
Lemma find_some {S} (fs : list (bytes * flag S)) n f : NoDup (map fst fs) -> (find_flag n fs = Some f <-> In (n, f) fs).
Proof.
  intros D. induction fs as [|(m, g) l IH]; [split; [discriminate | intros []]|]. cbn in D. inversion D; subst. cbn [find_flag].
  destruct (bytes_eqb m n) eqn:E.
  - apply bytes_eqb_eq in E. subst m. split; [intros H; injection H as ->; left; reflexivity|]. intros [H|H]; [congruence|].
    exfalso. match goal with X : ~ In n _ |- _ => apply X end. apply in_map_iff. exists (n, f). auto.
  - rewrite IH by assumption. split; [intros H; right; exact H|]. intros [H|H]; [|exact H]. injection H as -> _. rewrite bytes_eqb_refl in E. discriminate E.
Qed.
Lemma find_none {S} (fs : list (bytes * flag S)) n : find_flag n fs = None <-> ~ In n (map fst fs).
Proof.
  induction fs as [|(m, g) l IH]; [split; [intros _ [] | reflexivity]|]. cbn [find_flag map fst]. destruct (bytes_eqb m n) eqn:E.
  - apply bytes_eqb_eq in E. split; [discriminate | intros H; destruct H; left; exact E].
  - rewrite IH. split; [intros H [K|K]; [subst m; rewrite bytes_eqb_refl in E; discriminate E | auto] | intros H K; apply H; right; exact K].
Qed.
Lemma lib_names {S} (lib : library) : map fst (@lib_flags S lib) = map fst lib.
Proof. unfold lib_flags. rewrite map_map. apply map_ext. intros (n & b & acc). reflexivity. Qed.
Lemma in_lib {S} (lib : library) n (f : flag S) : In (n, f) (lib_flags lib) <-> exists b acc, In (n, (b, acc)) lib /\ f = mkflag b (fun v st => (st, acc v)).
Proof.
  unfold lib_flags. rewrite in_map_iff. split.
  - intros ((m & b & acc) & E & H). injection E as <- <-. exists b, acc. auto.
  - intros (b & acc & H & ->). exists (n, (b, acc)). auto.
Qed.

Section Main.
Variable lib : library.
Hypothesis D : distinct lib.
Let fs := own_flags ++ lib_flags lib.
Lemma fs_names : map fst fs = map fst own ++ map fst lib.
Proof. unfold fs. rewrite map_app, lib_names. reflexivity. Qed.
Lemma fs_distinct : NoDup (map fst fs).
Proof. rewrite fs_names. exact D. Qed.
Lemma lib_not_own n b acc : In (n, (b, acc)) lib -> ~ In n (map fst own).
Proof.
  intros H K. unfold distinct in D. apply in_split in K. destruct K as (l1 & l2 & K). rewrite K in D. rewrite <- app_assoc in D. cbn [app] in D.
  apply NoDup_remove_2 in D. apply D. apply in_or_app. right. apply in_or_app. right. apply in_map_iff. exists (n, (b, acc)). auto.
Qed.
Lemma fs_cases n f : In (n, f) fs -> In (n, f) own_flags \/ exists b acc, In (n, (b, acc)) lib /\ f = mkflag b (fun v st => (st, acc v)).
Proof. unfold fs. rewrite in_app_iff, in_lib. auto. Qed.

Lemma known_iff n b : known_in fs n b <-> known lib n b.
Proof.
  unfold known_in, known. split.
  - intros (f & F & B). apply (find_some _ _ _ fs_distinct) in F. destruct (fs_cases n f F) as [O|(b' & acc & I & ->)].
    + left. cbn in O. decompose [or] O; try contradiction; match goal with X : (_, _) = (_, _) |- _ => injection X as <- <- end; cbn in B; subst b;
        eexists; cbn; auto 10.
    + right. cbn in B. subst b'. exists acc. exact I.
  - intros [(var & I)|(acc & I)].
    + cbn in I. decompose [or] I; try contradiction; match goal with X : (_, _) = (_, _) |- _ => injection X as <- _ <- end;
        eexists; (split; [apply (find_some _ _ _ fs_distinct); unfold fs; apply in_or_app; left; cbn; auto 10 | reflexivity]).
    + eexists. split; [apply (find_some _ _ _ fs_distinct); unfold fs; apply in_or_app; right; apply in_lib; exists b, acc; split; [exact I | reflexivity] | reflexivity].
Qed.
Lemma unknown_iff n : find_flag n fs = None <-> forall b, ~ known lib n b.
Proof.
  split.
  - intros F b K. apply known_iff in K. destruct K as (f & K & _). congruence.
  - intros H. destruct (find_flag n fs) as [f|] eqn:F; [|reflexivity]. destruct (H (is_bool f)). apply known_iff. exists f. auto.
Qed.

(** Acceptance does not depend on the state. *)
Lemma set_anon_ok v st : snd (set_anon v st) = true <-> exists m, method_text v m.
Proof.
  unfold set_anon, method_text. destruct (bytes_eqb v (str "none")) eqn:E1; [apply bytes_eqb_eq in E1; subst v; split; [intros _; exists MNone; cbn; auto | reflexivity]|].
  destruct (bytes_eqb v (str "netblock")) eqn:E2; [apply bytes_eqb_eq in E2; subst v; split; [intros _; exists MNetblock; cbn; auto | reflexivity]|].
  split; [discriminate|]. intros (m & [H|[H|[]]]); injection H as <- _; [discriminate E1 | discriminate E2].
Qed.
Lemma accept_iff n f v st : In (n, f) fs -> (snd (set_to f v st) = true <-> acceptable lib (n, v)).
Proof.
  intros I. destruct (fs_cases n f I) as [O|(b & acc & J & ->)].
  - assert (N : forall b acc, ~ In (n, (b, acc)) lib).
    { intros b acc J. apply (lib_not_own n b acc J). cbn in O |- *. decompose [or] O; try contradiction; match goal with X : (_, _) = (_, _) |- _ => injection X as <- _ end; auto 10. }
    assert (A : acceptable lib (n, v) <-> ((n = str "reps" -> exists z, int64_text v z) /\ (n = str "trace" -> exists b, bool_text v b) /\ (n = str "anonymize.ip" -> exists m, method_text v m))).
    { unfold acceptable. cbn [fst snd]. split; [tauto|]. intros (A1 & A2 & A3). repeat (split; [assumption|]). intros b acc J. destruct (N b acc J). }
    rewrite A. cbn in O. decompose [or] O; try contradiction; match goal with X : (_, _) = (_, _) |- _ => injection X as <- <- end; cbn [set_to].
    + split.
      * intros H. split; [intros _|split; intros Q; discriminate Q]. unfold set_reps in H. destruct (parse_int64 v) as [z ok] eqn:E. cbn in H. subst ok. exists z. apply int_ok, E.
      * intros (H & _). destruct (H eq_refl) as (z & Hz). apply int_ok in Hz. unfold set_reps. rewrite Hz. reflexivity.
    + split.
      * intros H. split; [intros Q; discriminate Q|]. split; [intros _|intros Q; discriminate Q]. unfold set_trace in H. destruct (parse_bool v) as [z ok] eqn:E. cbn in H. subst ok. exists z. apply bool_ok, E.
      * intros (_ & H & _). destruct (H eq_refl) as (z & Hz). apply bool_ok in Hz. unfold set_trace. rewrite Hz. reflexivity.
    + split; [intros _; repeat split; intros Q; discriminate Q | reflexivity].
    + split; [intros _; repeat split; intros Q; discriminate Q | reflexivity].
    + split; [intros _; repeat split; intros Q; discriminate Q | reflexivity].
    + split; [intros _; repeat split; intros Q; discriminate Q | reflexivity].
    + rewrite set_anon_ok. split; [intros H; split; [intros Q; discriminate Q|]; split; [intros Q; discriminate Q | auto] | intros (_ & _ & H); exact (H eq_refl)].
  - cbn [set_to snd]. pose proof (lib_not_own n b acc J) as N. unfold acceptable. cbn [fst snd]. split.
    + intros H. split; [intros ->; destruct N; cbn; auto 10|]. split; [intros ->; destruct N; cbn; auto 10|]. split; [intros ->; destruct N; cbn; auto 10|].
      intros b' acc' J'. assert (acc' = acc) as ->; [|exact H].
      unfold distinct in D. apply nodup_app_r in D.
      clear -D J J'. induction lib as [|x l IH]; [destruct J|]. cbn in D. inversion D; subst. destruct J as [->|J], J' as [J'|J'].
      * congruence.
      * exfalso. match goal with X : ~ In _ _ |- _ => apply X end. apply in_map_iff. exists (n, (b', acc')). auto.
      * subst x. exfalso. match goal with X : ~ In _ _ |- _ => apply X end. apply in_map_iff. exists (n, (b, acc)). auto.
      * auto.
    + intros (_ & _ & _ & H). exact (H b acc J).
Qed.
Lemma sets_iff occ : Forall (fun nv => exists b, known lib (fst nv) b) occ -> forall st, (exists st', sets fs occ st = Some st') <-> Forall (acceptable lib) occ.
Proof.
  intros K. induction K as [|(n, v) occ (b & Hk) K IH]; intros st; [split; [constructor | eexists; reflexivity]|].
  apply known_iff in Hk. destruct Hk as (f & F & _). cbn [fst] in F. cbn [sets]. rewrite F. apply (find_some _ _ _ fs_distinct) in F. pose proof (accept_iff n f v st F) as A.
  destruct (set_to f v st) as [st1 [|]]; cbn [snd] in A.
  - rewrite (IH st1). split; [intros H; constructor; [apply A; reflexivity | exact H] | intros H; inversion H; assumption].
  - split; [intros (st' & H); discriminate H | intros H; inversion H; subst; match goal with X : acceptable lib _ |- _ => apply A in X; discriminate X end].
Qed.
Lemma command_iff args occ : command lib args occ <->
  exists pre tail st', args = pre ++ tail /\ spells (known_in fs) pre occ /\ sets fs occ defaults = Some st' /\ ends tail.
Proof.
  unfold command. split.
  - intros (pre & tail & E & Sp & En & A). apply (sets_iff occ (spells_known _ _ _ Sp) defaults) in A. destruct A as (st' & A).
    exists pre, tail, st'. split; [exact E|]. split; [|auto]. revert Sp. apply spells_impl. intros n b. apply known_iff.
  - intros (pre & tail & st' & E & Sp & A & En). exists pre, tail. split; [exact E|].
    assert (Sp' : spells (known lib) pre occ) by (revert Sp; apply spells_impl; intros n b; apply known_iff).
    split; [exact Sp'|]. split; [exact En|]. apply (sets_iff occ (spells_known _ _ _ Sp') defaults). exists st'. exact A.
Qed.

(** The effect of a value on each variable *)
Ltac effect := intros n f v st I; destruct (fs_cases n f I) as [O|(b & acc & J & ->)];
  [cbn in O; decompose [or] O; try contradiction; match goal with X : (_, _) = (_, _) |- _ => injection X as <- <- end; cbn [set_to];
     unfold set_reps, set_trace; try destruct (parse_int64 v) eqn:?; try destruct (parse_bool v) eqn:?; try reflexivity;
     unfold set_anon; destruct (bytes_eqb v (str "none")); try reflexivity; destruct (bytes_eqb v (str "netblock")); reflexivity
  |cbn [set_to fst]; rewrite bytes_neqb; [reflexivity | intros ->; apply (lib_not_own _ _ _ J); cbn; auto 10]].
Lemma effect_reps n f v st : In (n, f) fs -> f_reps (fst (set_to f v st)) = if bytes_eqb n (str "reps") then fst (parse_int64 v) else f_reps st.
Proof. revert n f v st. effect. Qed.
Lemma effect_trace n f v st : In (n, f) fs -> f_trace (fst (set_to f v st)) = if bytes_eqb n (str "trace") then fst (parse_bool v) else f_trace st.
Proof. revert n f v st. effect. Qed.
Lemma effect_output n f v st : In (n, f) fs -> f_output (fst (set_to f v st)) = if bytes_eqb n (str "output") then v else f_output st.
Proof. revert n f v st. effect. Qed.
Lemma effect_ports n f v st : In (n, f) fs -> f_ports (fst (set_to f v st)) = if bytes_eqb n (str "exclude-srcport") then f_ports st ++ split_comma v else f_ports st.
Proof. revert n f v st. effect. Qed.
Lemma effect_ips n f v st : In (n, f) fs -> f_ips (fst (set_to f v st)) = if bytes_eqb n (str "exclude-dstip") then f_ips st ++ split_comma v else f_ips st.
Proof. revert n f v st. effect. Qed.
Lemma effect_socket n f v st : In (n, f) fs -> f_socket (fst (set_to f v st)) = if bytes_eqb n (str "tcpinfo.eventsocket") then v else f_socket st.
Proof. revert n f v st. effect. Qed.
Definition method_of (v : bytes) (m : method) : method :=
  if bytes_eqb v (str "none") then MNone else if bytes_eqb v (str "netblock") then MNetblock else m.
Lemma effect_anon n f v st : In (n, f) fs -> f_anon (fst (set_to f v st)) = if bytes_eqb n (str "anonymize.ip") then method_of v (f_anon st) else f_anon st.
Proof. revert n f v st. unfold method_of. effect. Qed.

Lemma last_cases {A} (g : bytes -> A) ts a : fold_left (fun _ v => g v) ts a = match rev ts with [] => a | t :: _ => g t end.
Proof.
  rewrite <- (rev_involutive ts) at 1. destruct (rev ts) as [|t r]; [reflexivity|]. cbn [rev]. rewrite fold_left_app. reflexivity.
Qed.
Lemma split_concat ts : forall a, fold_left (fun a v => a ++ split_comma v) ts a = a ++ concat (map split_comma ts).
Proof.
  induction ts as [|t ts IH]; intros a; cbn; [rewrite app_nil_r; reflexivity|]. rewrite IH, <- app_assoc. reflexivity.
Qed.
Lemma rev_last {A} (l r : list A) t : rev l = t :: r -> l = rev r ++ [t].
Proof. intros H. rewrite <- (rev_involutive l), H. reflexivity. Qed.
Lemma in_names n : In n (map fst own) -> In n (map fst fs).
Proof. intros H. rewrite fs_names. apply in_or_app. auto. Qed.

Lemma asked_ok occ env st' : Forall (acceptable lib) occ -> sets fs occ defaults = Some st' ->
  asked occ env (fst (args_from_env fs (rev (map fst occ)) env st')).
Proof.
  intros Ac H.
  assert (At : forall n t, In (n, t) occ -> acceptable lib (n, t)) by (intros n t; apply (proj1 (Forall_forall _ _) Ac)).
  constructor.
  - destruct (whole_var fs f_reps _ (fun v _ => fst (parse_int64 v)) effect_reps occ env defaults st' fs_distinct (in_names (str "reps") ltac:(cbn; auto 10)) H)
      as (su & ts & T & E & Su). exists su, ts. split; [exact T|]. rewrite E, last_cases. unfold meant. destruct (rev ts) as [|t r] eqn:Er.
    + left. split; [rewrite <- (rev_involutive ts), Er; reflexivity | reflexivity].
    + right. apply rev_last in Er. exists (rev r), t. split; [exact Er|]. destruct (parse_int64 t) as [z [|]] eqn:P; cbn [fst]; [left; apply int_ok, P|].
      right. split; [intros a Ha; apply int_ok in Ha; congruence|]. split; [|exact (int_bad t z P)].
      destruct su; [|reflexivity]. destruct (proj1 (At (str "reps") t (Su eq_refl t ltac:(rewrite Er; apply in_or_app; right; left; reflexivity))) eq_refl) as (y & Hy).
      apply int_ok in Hy. cbn [snd] in Hy. congruence.
  - destruct (whole_var fs f_trace _ (fun v _ => fst (parse_bool v)) effect_trace occ env defaults st' fs_distinct (in_names (str "trace") ltac:(cbn; auto 10)) H)
      as (su & ts & T & E & Su). exists su, ts. split; [exact T|]. rewrite E, last_cases. unfold meant. destruct (rev ts) as [|t r] eqn:Er.
    + left. split; [rewrite <- (rev_involutive ts), Er; reflexivity | reflexivity].
    + right. apply rev_last in Er. exists (rev r), t. split; [exact Er|]. destruct (parse_bool t) as [z [|]] eqn:P; cbn [fst]; [left; apply bool_ok, P|].
      right. destruct (bool_bad t z P) as (-> & B). split; [exact B|]. split; [|reflexivity].
      destruct su; [|reflexivity]. destruct (proj1 (proj2 (At (str "trace") t (Su eq_refl t ltac:(rewrite Er; apply in_or_app; right; left; reflexivity)))) eq_refl) as (y & Hy).
      destruct (B y Hy).
  - destruct (whole_var fs f_output _ (fun v _ => v) effect_output occ env defaults st' fs_distinct (in_names (str "output") ltac:(cbn; auto 10)) H)
      as (su & ts & T & E & Su). exists su, ts. split; [exact T|]. rewrite E, last_cases. unfold meant. destruct (rev ts) as [|t r] eqn:Er.
    + left. split; [rewrite <- (rev_involutive ts), Er; reflexivity | reflexivity].
    + right. apply rev_last in Er. exists (rev r), t. auto.
  - destruct (whole_var fs f_ports _ (fun v a => a ++ split_comma v) effect_ports occ env defaults st' fs_distinct (in_names (str "exclude-srcport") ltac:(cbn; auto 10)) H)
      as (su & ts & T & E & Su). exists su, ts, (map split_comma ts). split; [exact T|]. split; [|rewrite E, split_concat; reflexivity].
    clear. induction ts; constructor; [apply split_ok | assumption].
  - destruct (whole_var fs f_ips _ (fun v a => a ++ split_comma v) effect_ips occ env defaults st' fs_distinct (in_names (str "exclude-dstip") ltac:(cbn; auto 10)) H)
      as (su & ts & T & E & Su). exists su, ts, (map split_comma ts). split; [exact T|]. split; [|rewrite E, split_concat; reflexivity].
    clear. induction ts; constructor; [apply split_ok | assumption].
  - destruct (whole_var fs f_socket _ (fun v _ => v) effect_socket occ env defaults st' fs_distinct (in_names (str "tcpinfo.eventsocket") ltac:(cbn; auto 10)) H)
      as (su & ts & T & E & Su). exists su, ts. split; [exact T|]. rewrite E, last_cases. unfold meant. destruct (rev ts) as [|t r] eqn:Er.
    + left. split; [rewrite <- (rev_involutive ts), Er; reflexivity | reflexivity].
    + right. apply rev_last in Er. exists (rev r), t. auto.
  - destruct (whole_var fs f_anon _ method_of effect_anon occ env defaults st' fs_distinct (in_names (str "anonymize.ip") ltac:(cbn; auto 10)) H)
      as (su & ts & T & E & Su). exists su, ts. split; [exact T|]. rewrite E. clear E. unfold meant.
    destruct (rev ts) as [|t r] eqn:Er.
    + left. assert (ts = []) as -> by (rewrite <- (rev_involutive ts), Er; reflexivity). split; reflexivity.
    + right. apply rev_last in Er. exists (rev r), t. split; [exact Er|]. rewrite Er, fold_left_app. cbn [fold_left].
      destruct (bytes_eqb t (str "none")) eqn:E1; [apply bytes_eqb_eq in E1; subst t; left; cbn; auto|].
      destruct (bytes_eqb t (str "netblock")) eqn:E2; [apply bytes_eqb_eq in E2; subst t; left; cbn; auto|]. right.
      assert (B : forall m, ~ method_text t m) by (intros m [Q|[Q|[]]]; injection Q as <- _; [discriminate E1 | discriminate E2]).
      split; [exact B|]. destruct su.
      * exfalso. destruct (proj1 (proj2 (proj2 (At (str "anonymize.ip") t (Su eq_refl t ltac:(rewrite Er; apply in_or_app; right; left; reflexivity))))) eq_refl) as (y & Hy).
        exact (B y Hy).
      * split; [reflexivity|]. destruct T as (vs & V & [(_ & Q & _)|(_ & _ & T)]); [discriminate Q|].
        destruct (env _); rewrite T in Er; destruct (rev r) as [|? [|? ?]]; try discriminate Er. cbn [fold_left]. unfold method_of. rewrite E1, E2. reflexivity.
Qed.

Lemma main_goes args env st : main_flags lib args env = Goes st -> exists occ, command lib args occ /\ asked occ env st.
Proof.
  unfold main_flags. fold fs. destruct (parse fs args defaults []) as [st1 g rest| |] eqn:P; try discriminate. intros H. injection H as <-.
  destruct (proj1 (parse_goes_iff fs args defaults st1 g) (ex_intro _ rest P)) as (pre & tail & occ & E & Sp & Se & En & ->).
  assert (C : command lib args occ) by (apply command_iff; exists pre, tail, st1; auto). exists occ. split; [exact C|].
  destruct C as (_ & _ & _ & _ & _ & C). exact (asked_ok occ env st1 C Se).
Qed.
Lemma main_command args env occ : command lib args occ -> exists st, main_flags lib args env = Goes st /\ asked occ env st.
Proof.
  intros C. assert (Ac : Forall (acceptable lib) occ) by (destruct C as (_ & _ & _ & _ & _ & C); exact C). apply command_iff in C. destruct C as (pre & tail & st1 & E & Sp & Se & En).
  destruct (proj2 (parse_goes_iff fs args defaults st1 (rev (map fst occ)))) as (rest & P); [exists pre, tail, occ; auto|].
  unfold main_flags. fold fs. rewrite P. eexists. split; [reflexivity|]. exact (asked_ok occ env st1 Ac Se).
Qed.
Lemma main_help args env : main_flags lib args env = Exits 0 <-> asks_help lib args.
Proof.
  assert (G : main_flags lib args env = Exits 0 <-> parse fs args defaults [] = Helped).
  { unfold main_flags. fold fs. destruct (parse fs args defaults []); split; try discriminate; reflexivity. }
  rewrite G, parse_help_iff. unfold asks_help, helps. split.
  - intros (pre & w & tail & occ & st' & E & Sp & Se & n & v & W & N & F). pose proof (proj1 (unknown_iff n) F) as F1.
    assert (Sp' : spells (known lib) pre occ) by (revert Sp; apply spells_impl; intros m b; apply known_iff).
    exists pre, w, tail, occ, n, v. repeat (split; [assumption|]). split; [|auto]. apply (sets_iff occ (spells_known _ _ _ Sp') defaults). exists st'. exact Se.
  - intros (pre & w & tail & occ & n & v & E & Sp & Ac & W & N & F). apply (sets_iff occ (spells_known _ _ _ Sp) defaults) in Ac. destruct Ac as (st' & Se).
    exists pre, w, tail, occ, st'. split; [exact E|]. split; [revert Sp; apply spells_impl; intros m b; apply known_iff|]. split; [exact Se|].
    exists n, v. split; [exact W|]. split; [exact N|]. apply unknown_iff, F.
Qed.
Lemma main_exits args env : (exists st, main_flags lib args env = Goes st) \/ main_flags lib args env = Exits 0 \/ main_flags lib args env = Exits 2.
Proof. unfold main_flags. destruct (parse _ _ _ _); eauto. Qed.
End Main.

(** * A command line is read in one way *)

Lemma written_once w n v n' v' : written w n v -> written w n' v' -> n = n' /\ v = v'.
Proof.
  assert (G : forall w n v, written w n v -> exists a t, n = a :: t /\ a <> x2d /\
            (w = x2d :: a :: t ++ match v with None => [] | Some v => x3d :: v end \/ w = x2d :: x2d :: a :: t ++ match v with None => [] | Some v => x3d :: v end) /\
            cut_eq (a :: t ++ match v with None => [] | Some v => x3d :: v end) = (n, v)).
  { clear. intros w n v (ds & Hd & Hn & Hm & He & ->). destruct n as [|a t]; [congruence|]. exists a, t. split; [reflexivity|].
    split; [intros ->; exact (Hm t eq_refl)|]. split; [destruct Hd as [->| ->]; [left | right]; reflexivity|].
    rewrite app_comm_cons. destruct v as [v|]; [apply cut_eq_some, He | rewrite app_nil_r; apply cut_eq_none, He]. }
  intros H H'. destruct (G _ _ _ H) as (a & t & -> & Na & Hw & Hc). destruct (G _ _ _ H') as (a' & t' & -> & Na' & Hw' & Hc').
  assert (E : a :: t ++ match v with None => [] | Some v => x3d :: v end = a' :: t' ++ match v' with None => [] | Some v => x3d :: v end).
  { destruct Hw as [->| ->], Hw' as [E|E]; injection E as E; subst; congruence. }
  rewrite E in Hc. rewrite Hc in Hc'. injection Hc' as -> -> ->. auto.
Qed.
Lemma written_form w n v : written w n v -> w <> str "--" /\ ~ plain w.
Proof.
  intros (ds & Hd & Hn & Hm & He & ->). destruct n as [|a t]; [congruence|]. split.
  - destruct Hd as [->| ->]; cbn; [|discriminate]. intros E. injection E as -> _. exact (Hm t eq_refl).
  - intros P. destruct Hd as [->| ->]; [apply (P ((a :: t) ++ match v with None => [] | Some v => x3d :: v end)) | apply (P (x2d :: (a :: t) ++ match v with None => [] | Some v => x3d :: v end))];
      try discriminate; reflexivity.
Qed.
Lemma ends_not_flag w n v r : written w n v -> ends (w :: r) -> False.
Proof.
  intros W [E|(w' & r' & E & H)]; [discriminate E|]. injection E as <- <-. destruct (written_form w n v W) as (A & B). destruct H; auto.
Qed.
Lemma spells_once (k : bytes -> bool -> Prop) : (forall n b b', k n b -> k n b' -> b = b') -> forall pre occ, spells k pre occ ->
  forall tail pre' occ' tail', spells k pre' occ' -> ends tail -> ends tail' -> pre ++ tail = pre' ++ tail' -> pre = pre' /\ occ = occ' /\ tail = tail'.
Proof.
  intros F pre occ Sp. induction Sp as [|w n v b args occ W K Sp IH|w n v args occ W K Sp IH|w n args occ W K Sp IH]; intros tail pre' occ' tail' Sp' En En' E.
  - destruct Sp'; [auto| | |]; cbn in E; subst tail; match goal with X : written _ _ _ |- _ => destruct (ends_not_flag _ _ _ _ X En) end.
  - destruct Sp' as [|w' n' v' b' args' occ' W' K' Sp'|w' n' v' args' occ' W' K' Sp'|w' n' args' occ' W' K' Sp']; cbn [app] in E.
    + subst tail'. destruct (ends_not_flag _ _ _ _ W En').
    + injection E as <- E. destruct (written_once _ _ _ _ _ W W') as (<- & Q). injection Q as <-.
      destruct (IH _ _ _ _ Sp' En En' E) as (-> & -> & ->). auto.
    + injection E as <- E. destruct (written_once _ _ _ _ _ W W') as (_ & Q). discriminate Q.
    + injection E as <- E. destruct (written_once _ _ _ _ _ W W') as (_ & Q). discriminate Q.
  - destruct Sp' as [|w' n' v' b' args' occ' W' K' Sp'|w' n' v' args' occ' W' K' Sp'|w' n' args' occ' W' K' Sp']; cbn [app] in E.
    + subst tail'. destruct (ends_not_flag _ _ _ _ W En').
    + injection E as <- E. destruct (written_once _ _ _ _ _ W W') as (_ & Q). discriminate Q.
    + injection E as <- <- E. destruct (written_once _ _ _ _ _ W W') as (<- & _).
      destruct (IH _ _ _ _ Sp' En En' E) as (-> & -> & ->). auto.
    + injection E as <- E. destruct (written_once _ _ _ _ _ W W') as (<- & _). discriminate (F _ _ _ K K').
  - destruct Sp' as [|w' n' v' b' args' occ' W' K' Sp'|w' n' v' args' occ' W' K' Sp'|w' n' args' occ' W' K' Sp']; cbn [app] in E.
    + subst tail'. destruct (ends_not_flag _ _ _ _ W En').
    + injection E as <- E. destruct (written_once _ _ _ _ _ W W') as (_ & Q). discriminate Q.
    + injection E as <- E. destruct (written_once _ _ _ _ _ W W') as (<- & _). discriminate (F _ _ _ K K').
    + injection E as <- E. destruct (written_once _ _ _ _ _ W W') as (<- & _).
      destruct (IH _ _ _ _ Sp' En En' E) as (-> & -> & ->). auto.
Qed.
Lemma known_once lib n b b' : distinct lib -> known lib n b -> known lib n b' -> b = b'.
Proof.
  intros D K K'. apply (known_iff lib D) in K, K'. destruct K as (f & F & <-), K' as (f' & F' & <-). congruence.
Qed.
Lemma command_once lib args occ occ' : distinct lib -> command lib args occ -> command lib args occ' -> occ = occ'.
Proof.
  intros D (pre & tail & -> & Sp & En & _) (pre' & tail' & E & Sp' & En' & _).
  destruct (spells_once (known lib) (fun n b b' => known_once lib n b b' D) _ _ Sp _ _ _ _ Sp' En En' E) as (_ & Q & _). exact Q.
Qed.

(** * The example client *)

Lemma shell_char_ok c : var_char c (shell_char c).
Proof.
  unfold var_char, decimal_digit. destruct c; cbv;
    first [left; split; [left; split; discriminate | reflexivity] | left; split; [right; split; discriminate | reflexivity]
          | right; left; split; [split; discriminate | reflexivity]
          | right; right; split; [intuition congruence | reflexivity]].
Qed.
Lemma var_char_once c a b : var_char c a -> var_char c b -> a = b.
Proof.
  unfold var_char, decimal_digit. intros [(H & ->)|[(H & E)|(H & ->)]] [(H' & ->)|[(H' & E')|(H' & ->)]]; try reflexivity; try lia.
  apply bval_inj. congruence.
Qed.
Lemma is_dig_iff c : is_dig c = true <-> decimal_digit c.
Proof. unfold is_dig, decimal_digit. rewrite andb_true_iff, !N.leb_le. reflexivity. Qed.
Lemma variable_iff n var : variable n var <-> var = shell_name n.
Proof.
  assert (F : Forall2 var_char n (map shell_char n)) by (induction n; constructor; [apply shell_char_ok | assumption]).
  assert (U : forall t, Forall2 var_char n t -> t = map shell_char n).
  { intros t H. clear F. induction H; [reflexivity|]. cbn. f_equal; [|assumption]. eapply var_char_once; [eassumption | apply shell_char_ok]. }
  unfold variable, shell_name. split.
  - intros (t & Ht & H). apply U in Ht. subst t. destruct n as [|c r].
    + destruct H as [((? & ? & Q & _) & _)|(_ & ->)]; [discriminate Q | reflexivity].
    + destruct (is_dig c) eqn:E.
      * apply is_dig_iff in E. destruct H as [(_ & ->)|(H & _)]; [reflexivity | destruct H; eauto].
      * destruct H as [((a & b & Q & Hd) & _)|(_ & ->)]; [injection Q as <- <-; apply is_dig_iff in Hd; congruence | reflexivity].
  - intros ->. exists (map shell_char n). split; [exact F|]. destruct n as [|c r].
    + right. split; [intros (? & ? & Q & _); discriminate Q | reflexivity].
    + destruct (is_dig c) eqn:E.
      * left. apply is_dig_iff in E. split; [eauto | reflexivity].
      * right. split; [|reflexivity]. intros (a & b & Q & Hd). injection Q as <- <-. apply is_dig_iff in Hd. congruence.
Qed.

Section Client.
Variable lib : library.
Hypothesis D : client_distinct lib.
Let fs : list (bytes * flag bytes) := client_own ++ lib_flags lib.
Lemma c_distinct : NoDup (map fst fs).
Proof. unfold fs. rewrite map_app, lib_names. exact D. Qed.
Lemma c_cases n f : In (n, f) fs <-> n = str "tcpinfo.eventsocket" /\ f = mkflag false (fun v _ => (v, true)) \/
  exists b acc, In (n, (b, acc)) lib /\ f = mkflag b (fun v st => (st, acc v)).
Proof.
  unfold fs. rewrite in_app_iff, in_lib. split.
  - intros [[H|[]]|H]; [left; injection H as <- <-; auto | right; exact H].
  - intros [(-> & ->)|H]; [left; left; reflexivity | right; exact H].
Qed.
Lemma c_not_own n b acc : In (n, (b, acc)) lib -> n <> str "tcpinfo.eventsocket".
Proof.
  intros H ->. unfold client_distinct in D. inversion D; subst. match goal with X : ~ In _ _ |- _ => apply X end.
  apply in_map_iff. exists (str "tcpinfo.eventsocket", (b, acc)). auto.
Qed.
Lemma c_known n b : known_in fs n b <-> client_known lib n b.
Proof.
  unfold known_in, client_known. split.
  - intros (f & F & B). apply (find_some _ _ _ c_distinct), c_cases in F. destruct F as [(-> & ->)|(b' & acc & I & ->)]; cbn in B; subst; [left; auto | right; eauto].
  - intros [(-> & ->)|(acc & I)]; eexists; (split; [apply (find_some _ _ _ c_distinct), c_cases | ]); [left; auto | reflexivity | right; eauto | reflexivity].
Qed.
Lemma c_once n b acc b' acc' : In (n, (b, acc)) lib -> In (n, (b', acc')) lib -> acc' = acc.
Proof.
  unfold client_distinct in D. inversion D as [|x l _ D']; subst. clear D fs. revert D'. induction lib as [|x l IH]; [intros _ []|]. intros D' J J'. cbn in D'. inversion D'; subst.
  destruct J as [->|J], J' as [J'|J'].
  - congruence.
  - exfalso. match goal with X : ~ In _ _ |- _ => apply X end. apply in_map_iff. exists (n, (b', acc')). auto.
  - subst x. exfalso. match goal with X : ~ In _ _ |- _ => apply X end. apply in_map_iff. exists (n, (b, acc)). auto.
  - auto.
Qed.
Lemma c_accept n f v st : In (n, f) fs -> (snd (set_to f v st) = true <-> lib_accepts lib (n, v)).
Proof.
  intros I. unfold lib_accepts. cbn [fst snd]. apply c_cases in I. destruct I as [(-> & ->)|(b & acc & J & ->)]; cbn [set_to snd].
  - split; [|reflexivity]. intros _ b acc J. destruct (c_not_own _ _ _ J eq_refl).
  - split; [|intros H; exact (H b acc J)]. intros H b' acc' J'. rewrite (c_once n b acc b' acc' J J'). exact H.
Qed.
Lemma c_sets occ : Forall (fun nv => exists b, client_known lib (fst nv) b) occ -> forall st, (exists st', sets fs occ st = Some st') <-> Forall (lib_accepts lib) occ.
Proof.
  intros K. induction K as [|(n, v) occ (b & Hk) K IH]; intros st; [split; [constructor | eexists; reflexivity]|].
  apply c_known in Hk. destruct Hk as (f & F & _). cbn [fst] in F. cbn [sets]. rewrite F. apply (find_some _ _ _ c_distinct) in F. pose proof (c_accept n f v st F) as A.
  destruct (set_to f v st) as [st1 [|]]; cbn [snd] in A.
  - rewrite (IH st1). split; [intros H; constructor; [apply A; reflexivity | exact H] | intros H; inversion H; assumption].
  - split; [intros (st' & H); discriminate H | intros H; inversion H; subst; match goal with X : lib_accepts lib _ |- _ => apply A in X; discriminate X end].
Qed.
Lemma c_command args occ : client_command lib args occ <->
  exists pre tail st', args = pre ++ tail /\ spells (known_in fs) pre occ /\ sets fs occ [] = Some st' /\ ends tail.
Proof.
  unfold client_command. split.
  - intros (pre & tail & E & Sp & En & A). apply (c_sets occ (spells_known _ _ _ Sp) []) in A. destruct A as (st' & A).
    exists pre, tail, st'. split; [exact E|]. split; [|auto]. revert Sp. apply spells_impl. intros n b. apply c_known.
  - intros (pre & tail & st' & E & Sp & A & En). exists pre, tail. split; [exact E|].
    assert (Sp' : spells (client_known lib) pre occ) by (revert Sp; apply spells_impl; intros n b; apply c_known).
    split; [exact Sp'|]. split; [exact En|]. apply (c_sets occ (spells_known _ _ _ Sp') []). exists st'. exact A.
Qed.
Lemma c_effect n f v (st : bytes) : In (n, f) fs -> fst (set_to f v st) = if bytes_eqb n (str "tcpinfo.eventsocket") then v else st.
Proof.
  intros I. apply c_cases in I. destruct I as [(-> & ->)|(b & acc & J & ->)]; [reflexivity|]. cbn [set_to fst]. rewrite bytes_neqb; [reflexivity | exact (c_not_own _ _ _ J)].
Qed.
Lemma c_env_ok given env l : incl l fs -> forall a : bytes * bool,
  snd (fold_left (fun '(st, ok) '(n, f) =>
    if existsb (bytes_eqb n) given then (st, ok)
    else match env (shell_name n) with
         | None => (st, ok)
         | Some v => let '(st', ok') := set_to f v st in (st', ok && ok')
         end) l a) = true <->
  snd a = true /\ forall n f v, In (n, f) l -> ~ In n given -> env (shell_name n) = Some v -> lib_accepts lib (n, v).
Proof.
  induction l as [|(n, f) l IH]; intros I (st, ok); [cbn; split; [intros H; split; [exact H | intros n f v []] | tauto]|].
  cbn [fold_left]. rewrite IH by (intros x Hx; apply I; right; exact Hx).
  assert (G : existsb (bytes_eqb n) given = true <-> In n given).
  { rewrite existsb_exists. split; [intros (x & H & E); apply bytes_eqb_eq in E; subst x; exact H | intros H; exists n; split; [exact H | apply bytes_eqb_refl]]. }
  destruct (existsb (bytes_eqb n) given).
  - cbn [snd]. split; intros (H1 & H2); (split; [exact H1|]); intros m h v Hm N E; [|exact (H2 m h v (or_intror Hm) N E)].
    destruct Hm as [Hm|Hm]; [|exact (H2 m h v Hm N E)]. injection Hm as <- <-. destruct (N (proj1 G eq_refl)).
  - destruct (env (shell_name n)) as [v|] eqn:Ev.
    + pose proof (c_accept n f v st (I _ (or_introl eq_refl))) as A. destruct (set_to f v st) as [st1 ok1]. cbn [snd] in *. rewrite andb_true_iff, A. split.
      * intros ((H1 & H2) & H3). split; [exact H1|]. intros m h w Hm N E. destruct Hm as [Hm|Hm]; [|exact (H3 m h w Hm N E)].
        injection Hm as <- <-. replace w with v by congruence. exact H2.
      * intros (H1 & H2). split; [split; [exact H1|]|intros m h w Hm; exact (H2 m h w (or_intror Hm))].
        apply (H2 n f v (or_introl eq_refl)); [|exact Ev]. intros K. apply G in K. discriminate K.
    + cbn [snd]. split; intros (H1 & H2); (split; [exact H1|]); intros m h w Hm N E; [|exact (H2 m h w (or_intror Hm) N E)].
      destruct Hm as [Hm|Hm]; [|exact (H2 m h w Hm N E)]. injection Hm as <- <-. congruence.
Qed.
Lemma c_good occ env st : snd (args_from_env fs (rev (map fst occ)) env st) = true <-> good_variables lib env occ.
Proof.
  unfold args_from_env. rewrite (c_env_ok _ env fs (incl_refl _)). unfold good_variables. cbn [snd]. split.
  - intros (_ & H) n b acc var v I N V E. apply variable_iff in V. subst var.
    refine (H n (mkflag b (fun v st => (st, acc v))) v _ _ E b acc I); [apply c_cases; right; eauto | intros K; apply N, in_rev, K].
  - intros H. split; [reflexivity|]. intros n f v I N E b acc J. cbn [fst] in J.
    apply (H n b acc (shell_name n) v J); [intros K; apply N; apply -> in_rev; exact K | apply variable_iff; reflexivity | exact E].
Qed.
Lemma client_command_run args env occ : client_command lib args occ -> exists su ts,
  texts occ env (str "tcpinfo.eventsocket") (str "TCPINFO_EVENTSOCKET") su ts /\
  (good_variables lib env occ -> client_flags lib args env = match rev ts with [] | [] :: _ => Exits 1 | name :: _ => Goes name end) /\
  (~ good_variables lib env occ -> client_flags lib args env = Exits 1).
Proof.
  intros C. apply c_command in C. destruct C as (pre & tail & st1 & E & Sp & Se & En).
  destruct (proj2 (parse_goes_iff fs args [] st1 (rev (map fst occ)))) as (rest & P); [exists pre, tail, occ; auto|].
  destruct (whole_var fs (fun s => s) _ (fun v _ => v) c_effect occ env [] st1 c_distinct ltac:(left; reflexivity) Se) as (su & ts & T & Ev & _).
  exists su, ts. split; [exact T|]. rewrite last_cases in Ev. unfold client_flags. fold fs. rewrite P.
  pose proof (c_good occ env st1) as G. destruct (args_from_env fs (rev (map fst occ)) env st1) as [name ok]. cbn [fst snd] in *. subst name. split.
  - intros H. apply G in H. subst ok. destruct (rev ts) as [|[|c r] l]; reflexivity.
  - intros H. destruct ok; [destruct (H (proj1 G eq_refl)) | reflexivity].
Qed.
Lemma client_goes_command args env name : client_flags lib args env = Goes name \/ client_flags lib args env = Exits 1 -> exists occ, client_command lib args occ.
Proof.
  unfold client_flags. fold fs. destruct (parse fs args [] []) as [st1 g rest| |] eqn:P; [|intros [H|H]; discriminate H ..]. intros _.
  destruct (proj1 (parse_goes_iff fs args [] st1 g) (ex_intro _ rest P)) as (pre & tail & occ & E & Sp & Se & En & ->).
  exists occ. apply c_command. exists pre, tail, st1. auto.
Qed.
End Client.
