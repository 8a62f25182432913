(** How the parser of flags reads a command line, and what becomes of one
    variable. *)
From Coq Require Import Strings.String List NArith ZArith Bool Lia.
From Verif Require Import GoBase GoBaseFacts NetIP SpecConfig Flags SpecFlags FlagNumbers.
Import ListNotations.
Local Open Scope list_scope.

Lemma eqb_byte c d : Byte.eqb c d = true -> c = d.
Proof. apply byte_eqb_eq. Qed.
Lemma eqb_byte_refl c : Byte.eqb c c = true.
Proof. destruct c; reflexivity. Qed.

Section Parse.
Context {S : Type}.
Variable fs : list (bytes * flag S).
Definition known_in (n : bytes) (b : bool) : Prop := exists f, find_flag n fs = Some f /\ is_bool f = b.
Fixpoint sets (occ : list (bytes * bytes)) (st : S) : option S :=
  match occ with
  | [] => Some st
  | (n, v) :: r =>
    match find_flag n fs with
    | None => None
    | Some f => let '(st', ok) := set_to f v st in if ok then sets r st' else None
    end
  end.

Lemma cut_eq_spec s : match cut_eq s with
  | (n, None) => n = s /\ ~ In x3d s
  | (n, Some v) => s = n ++ x3d :: v /\ ~ In x3d n
  end.
Proof.
  induction s as [|c r IH]; [split; [reflexivity | intros []]|]. cbn [cut_eq]. destruct (Byte.eqb c x3d) eqn:E.
  - apply eqb_byte in E. subst c. split; [reflexivity | intros []].
  - assert (N : c <> x3d) by (intros ->; rewrite eqb_byte_refl in E; discriminate E).
    destruct (cut_eq r) as [n [v|]]; destruct IH as (-> & H); (split; [reflexivity|]); intros [K|K]; auto.
Qed.
Lemma cut_eq_none n : ~ In x3d n -> cut_eq n = (n, None).
Proof.
  intros H. induction n as [|c r IH]; [reflexivity|]. cbn [cut_eq]. destruct (Byte.eqb c x3d) eqn:E.
  - apply eqb_byte in E. destruct H. left. exact E.
  - rewrite IH; [reflexivity | intros K; apply H; right; exact K].
Qed.
Lemma cut_eq_some n v : ~ In x3d n -> cut_eq (n ++ x3d :: v) = (n, Some v).
Proof.
  intros H. induction n as [|c r IH]; [reflexivity|]. cbn [app cut_eq]. destruct (Byte.eqb c x3d) eqn:E.
  - apply eqb_byte in E. destruct H. left. exact E.
  - rewrite IH; [reflexivity | intros K; apply H; right; exact K].
Qed.

(** One flag *)
Definition after (r : list bytes) (st : S) (g : list bytes) (name : bytes) (v : option bytes) : parsed S :=
  match find_flag name fs with
  | None => if bytes_eqb name (str "help") || bytes_eqb name (str "h") then Helped else Misused
  | Some f =>
    if is_bool f then
      let '(st', ok) := set_to f (match v with Some v => v | None => str "true" end) st in
      if ok then parse fs r st' (name :: g) else Misused
    else
      match v with
      | Some v => let '(st', ok) := set_to f v st in if ok then parse fs r st' (name :: g) else Misused
      | None =>
        match r with
        | [] => Misused
        | v :: r' => let '(st', ok) := set_to f v st in if ok then parse fs r' st' (name :: g) else Misused
        end
      end
  end.
Lemma parse_written w n v r st g : written w n v -> parse fs (w :: r) st g = after r st g n v.
Proof.
  intros (ds & Hd & Hn & Hm & He & ->). destruct n as [|a t]; [congruence|].
  assert (Ha : Byte.eqb a x2d = false) by (destruct (Byte.eqb a x2d) eqn:E; [apply eqb_byte in E; subst a; destruct (Hm t eq_refl) | reflexivity]).
  assert (Hq : Byte.eqb a x3d = false) by (destruct (Byte.eqb a x3d) eqn:E; [apply eqb_byte in E; subst a; destruct He; left; reflexivity | reflexivity]).
  assert (Hc : cut_eq (t ++ match v with None => [] | Some v => x3d :: v end) = (t, v)).
  { assert (K : ~ In x3d t) by (intros K; apply He; right; exact K). destruct v as [v|]; [apply cut_eq_some, K | rewrite app_nil_r; apply cut_eq_none, K]. }
  unfold after. destruct Hd as [->| ->].
  - change (str "-") with [x2d]. cbn [app parse]. change (Byte.eqb x2d x2d) with true. cbn [negb]. rewrite ?Ha. cbn [andb]. rewrite ?Ha, ?Hq. cbn [orb]. rewrite Hc. reflexivity.
  - change (str "--") with [x2d; x2d]. cbn [app parse]. change (Byte.eqb x2d x2d) with true. cbn [negb andb]. rewrite ?Ha, ?Hq. cbn [orb]. rewrite Hc. reflexivity.
Qed.
Lemma word_cases w : plain w \/ w = str "--" \/ (exists n v, written w n v) \/ forall r st g, parse fs (w :: r) st g = Misused.
Proof.
  destruct w as [|c [|d s]]; [left; discriminate | left; intros t Ht E; injection E as _ <-; auto|].
  destruct (Byte.eqb c x2d) eqn:Ec; [apply eqb_byte in Ec; subst c | left; intros t Ht E; injection E as -> _; discriminate Ec].
  assert (G : forall a t dashes, (dashes = str "-" \/ dashes = str "--") -> Byte.eqb a x2d = false -> Byte.eqb a x3d = false -> exists n v, written (dashes ++ a :: t) n v).
  { intros a t ds Hd H1 H2. pose proof (cut_eq_spec t) as C. destruct (cut_eq t) as [n v]. exists (a :: n), v, ds. split; [exact Hd|]. split; [discriminate|].
    split; [intros u E; injection E as -> _; discriminate H1|]. destruct v as [v|]; destruct C as (-> & C).
    - split; [intros [->|K]; [discriminate H2 | auto] | reflexivity].
    - split; [intros [->|K]; [discriminate H2 | auto] | rewrite app_nil_r; reflexivity]. }
  destruct (Byte.eqb d x2d) eqn:Ed.
  - apply eqb_byte in Ed. subst d. destruct s as [|a t]; [right; left; reflexivity|]. right. right.
    destruct (Byte.eqb a x2d) eqn:E1; [right; intros; cbn; rewrite ?E1; reflexivity|].
    destruct (Byte.eqb a x3d) eqn:E2; [right; intros; cbn; rewrite ?E1, ?E2; reflexivity|]. left. exact (G a t (str "--") (or_intror eq_refl) E1 E2).
  - right. right. destruct (Byte.eqb d x3d) eqn:E2; [right; intros; cbn; rewrite ?Ed; cbn; rewrite ?Ed, ?E2; reflexivity|].
    left. exact (G d s (str "-") (or_introl eq_refl) Ed E2).
Qed.
Lemma parse_ends tail st g : ends tail -> exists rest, parse fs tail st g = Parsed st g rest.
Proof.
  intros [->|(w & r & -> & [->|H])]; [exists []; reflexivity | exists r; reflexivity|].
  destruct w as [|c [|d s]]; [eexists; reflexivity | eexists; reflexivity|]. cbn [parse]. destruct (Byte.eqb c x2d) eqn:E; [|eexists; reflexivity].
  apply eqb_byte in E. subst c. destruct (H (d :: s) ltac:(discriminate) eq_refl).
Qed.
Lemma parse_spelled pre occ : spells known_in pre occ -> forall tail st st' g, sets occ st = Some st' ->
  parse fs (pre ++ tail) st g = parse fs tail st' (rev (map fst occ) ++ g).
Proof.
  induction 1 as [|w n v b args occ W (f & F & B) Sp IH|w n v args occ W (f & F & B) Sp IH|w n args occ W (f & F & B) Sp IH]; intros tail st st' g H.
  - cbn in H. injection H as <-. reflexivity.
  - cbn [sets] in H. rewrite F in H. destruct (set_to f v st) as [st1 ok] eqn:E. destruct ok; [|discriminate H].
    cbn [app map fst rev]. rewrite (parse_written _ _ _ _ _ _ W). unfold after. rewrite F, E. rewrite (IH tail _ _ (n :: g) H), <- app_assoc.
    destruct (is_bool f); reflexivity.
  - cbn [sets] in H. rewrite F in H. destruct (set_to f v st) as [st1 ok] eqn:E. destruct ok; [|discriminate H].
    cbn [app map fst rev]. rewrite (parse_written _ _ _ _ _ _ W). unfold after. rewrite F, B, E, (IH tail _ _ (n :: g) H), <- app_assoc. reflexivity.
  - cbn [sets] in H. rewrite F in H. destruct (set_to f (str "true") st) as [st1 ok] eqn:E. destruct ok; [|discriminate H].
    cbn [app map fst rev]. rewrite (parse_written _ _ _ _ _ _ W). unfold after. rewrite F, B, E, (IH tail _ _ (n :: g) H), <- app_assoc. reflexivity.
Qed.
Definition helps (w : bytes) : Prop := exists n v, written w n v /\ (n = str "h" \/ n = str "help") /\ find_flag n fs = None.
Lemma parse_cases k : forall args, length args <= k -> forall st g, exists pre tail occ st',
  args = pre ++ tail /\ spells known_in pre occ /\ sets occ st = Some st' /\
  (ends tail \/ (exists w r, tail = w :: r /\ helps w) \/ parse fs args st g = Misused).
Proof.
  induction k as [|k IH]; intros args L st g.
  { destruct args; [|cbn in L; lia]. exists [], [], [], st. split; [reflexivity|]. split; [constructor|]. split; [reflexivity|]. left. left. reflexivity. }
  destruct args as [|w r].
  { exists [], [], [], st. split; [reflexivity|]. split; [constructor|]. split; [reflexivity|]. left. left. reflexivity. }
  assert (Z : forall P : Prop, P -> exists pre tail occ st', w :: r = pre ++ tail /\ spells known_in pre occ /\ sets occ st = Some st' /\ (pre = [] /\ tail = w :: r /\ P)).
  { intros P HP. exists [], (w :: r), [], st. split; [reflexivity|]. split; [constructor|]. split; [reflexivity|]. auto. }
  cbn [length] in L. destruct (word_cases w) as [H|[H|[(n & v & H)|H]]].
  - destruct (Z _ H) as (pre & tail & occ & st' & E & A & B & -> & -> & _). exists [], (w :: r), occ, st'. repeat (split; [assumption|]).
    left. right. exists w, r. auto.
  - destruct (Z _ H) as (pre & tail & occ & st' & E & A & B & -> & -> & _). exists [], (w :: r), occ, st'. repeat (split; [assumption|]).
    left. right. exists w, r. auto.
  - rewrite (parse_written _ _ _ r st g H). unfold after. destruct (find_flag n fs) as [f|] eqn:F.
    + assert (Bad : exists pre tail occ st', w :: r = pre ++ tail /\ spells known_in pre occ /\ sets occ st = Some st' /\
          (ends tail \/ (exists w r, tail = w :: r /\ helps w) \/ @Misused S = Misused)).
      { exists [], (w :: r), [], st. split; [reflexivity|]. split; [constructor|]. split; [reflexivity|]. auto. }
      assert (Go : forall args r' v st1, length r' <= k -> set_to f v st = (st1, true) ->
          (forall occ pre, spells known_in pre occ -> spells known_in (args ++ pre) ((n, v) :: occ)) ->
          w :: r = args ++ r' ->
          exists pre tail occ st', w :: r = pre ++ tail /\ spells known_in pre occ /\ sets occ st = Some st' /\
          (ends tail \/ (exists w r, tail = w :: r /\ helps w) \/ parse fs r' st1 (n :: g) = Misused)).
      { intros args r' v0 st1 L' Es Hs E. destruct (IH r' L' st1 (n :: g)) as (pre & tail & occ & st' & -> & A & B & C).
        exists (args ++ pre), tail, ((n, v0) :: occ), st'. split; [rewrite <- app_assoc; exact E|]. split; [exact (Hs _ _ A)|].
        split; [cbn [sets]; rewrite F, Es; exact B | exact C]. }
      destruct (is_bool f) eqn:B.
      * destruct v as [v|].
        -- destruct (set_to f v st) as [st1 [|]] eqn:Es; [|exact Bad]. apply (Go [w] r v st1); [lia | exact Es | | reflexivity].
           intros occ pre Sp. apply (sp_value _ w n v true); [exact H | exists f; auto | exact Sp].
        -- destruct (set_to f (str "true") st) as [st1 [|]] eqn:Es; [|exact Bad]. apply (Go [w] r (str "true") st1); [lia | exact Es | | reflexivity].
           intros occ pre Sp. apply (sp_alone _ w n); [exact H | exists f; auto | exact Sp].
      * destruct v as [v|].
        -- destruct (set_to f v st) as [st1 [|]] eqn:Es; [|exact Bad]. apply (Go [w] r v st1); [lia | exact Es | | reflexivity].
           intros occ pre Sp. apply (sp_value _ w n v false); [exact H | exists f; auto | exact Sp].
        -- destruct r as [|v r']; [exact Bad|]. cbn [length] in L. destruct (set_to f v st) as [st1 [|]] eqn:Es; [|exact Bad].
           apply (Go [w; v] r' v st1); [lia | exact Es | | reflexivity].
           intros occ pre Sp. apply (sp_next _ w n v); [exact H | exists f; auto | exact Sp].
    + exists [], (w :: r), [], st. split; [reflexivity|]. split; [constructor|]. split; [reflexivity|]. right.
      destruct (bytes_eqb n (str "help")) eqn:E1; [left; exists w, r; split; [reflexivity|]; exists n, v; apply bytes_eqb_eq in E1; auto|].
      destruct (bytes_eqb n (str "h")) eqn:E2; [left; exists w, r; split; [reflexivity|]; exists n, v; apply bytes_eqb_eq in E2; auto|].
      right. reflexivity.
  - exists [], (w :: r), [], st. split; [reflexivity|]. split; [constructor|]. split; [reflexivity|]. right. right. apply H.
Qed.
Lemma parse_helps w r st g : helps w -> parse fs (w :: r) st g = Helped.
Proof.
  intros (n & v & W & N & F). rewrite (parse_written _ _ _ _ _ _ W). unfold after. rewrite F. destruct N as [->| ->]; reflexivity.
Qed.
Lemma parse_help_iff args st : parse fs args st [] = Helped <->
  exists pre w tail occ st', args = pre ++ w :: tail /\ spells known_in pre occ /\ sets occ st = Some st' /\ helps w.
Proof.
  split.
  - intros H. destruct (parse_cases (length args) args (le_n _) st []) as (pre & tail & occ & st' & E & A & B & [C|[(w & r & -> & C)|C]]).
    + rewrite E, (parse_spelled pre occ A tail st st' [] B) in H. destruct (parse_ends tail st' (rev (map fst occ) ++ []) C) as (x & Hx). congruence.
    + exists pre, w, r, occ, st'. auto.
    + congruence.
  - intros (pre & w & tail & occ & st' & -> & A & B & C). rewrite (parse_spelled pre occ A _ st st' [] B). apply parse_helps, C.
Qed.
Lemma parse_goes_iff args st st' g : (exists rest, parse fs args st [] = Parsed st' g rest) <->
  exists pre tail occ, args = pre ++ tail /\ spells known_in pre occ /\ sets occ st = Some st' /\ ends tail /\ g = rev (map fst occ).
Proof.
  split.
  - intros (rest & H). destruct (parse_cases (length args) args (le_n _) st []) as (pre & tail & occ & st1 & E & A & B & [C|[(w & r & -> & C)|C]]).
    + rewrite E, (parse_spelled pre occ A tail st st1 [] B) in H. destruct (parse_ends tail st1 (rev (map fst occ) ++ []) C) as (x & Hx).
      rewrite Hx, app_nil_r in H. injection H as -> <- _. exists pre, tail, occ. auto 10.
    + rewrite E, (parse_spelled pre occ A _ st st1 [] B), (parse_helps _ _ _ _ C) in H. discriminate H.
    + congruence.
  - intros (pre & tail & occ & -> & A & B & C & ->). rewrite (parse_spelled pre occ A _ st st' [] B), app_nil_r. exact (parse_ends _ _ _ C).
Qed.

(** What becomes of one variable *)
Section OneVariable.
Context {A : Type}.
Variables (pr : S -> A) (n0 : bytes) (upd : bytes -> A -> A).
Hypothesis effect : forall n f v st, In (n, f) fs -> pr (fst (set_to f v st)) = if bytes_eqb n n0 then upd v (pr st) else pr st.
Lemma find_in n f : find_flag n fs = Some f -> In (n, f) fs.
Proof.
  clear effect. induction fs as [|(m, h) l IH]; [discriminate|]. cbn [find_flag]. destruct (bytes_eqb m n) eqn:E.
  - intros H. injection H as ->. apply bytes_eqb_eq in E. subst m. left. reflexivity.
  - intros H. right. exact (IH H).
Qed.
Lemma sets_var occ : forall st st' vs, sets occ st = Some st' -> values_of n0 occ vs -> pr st' = fold_left (fun a v => upd v a) vs (pr st).
Proof.
  induction occ as [|(n, v) occ IH]; intros st st' vs H V.
  - cbn in H. injection H as <-. inversion V; subst. reflexivity.
  - cbn [sets] in H. destruct (find_flag n fs) as [f|] eqn:F; [|discriminate H]. pose proof (effect n f v st (find_in n f F)) as E.
    destruct (set_to f v st) as [st1 [|]]; [|discriminate H]. cbn [fst] in E. inversion V; subst.
    + rewrite bytes_eqb_refl in E. match goal with X : values_of _ occ _ |- _ => rewrite (IH _ _ _ H X) end. rewrite E. reflexivity.
    + assert (bytes_eqb n n0 = false) as K by (destruct (bytes_eqb n n0) eqn:K; [apply bytes_eqb_eq in K; congruence | reflexivity]).
      rewrite K in E. match goal with X : values_of _ occ _ |- _ => rewrite (IH _ _ _ H X) end. exact (f_equal _ E).
Qed.
Lemma env_other given env l : incl l fs -> ~ In n0 (map fst l) -> forall a : S * bool,
  pr (fst (fold_left (fun '(st, ok) '(n, f) =>
    if existsb (bytes_eqb n) given then (st, ok)
    else match env (shell_name n) with
         | None => (st, ok)
         | Some v => let '(st', ok') := set_to f v st in (st', ok && ok')
         end) l a)) = pr (fst a).
Proof.
  induction l as [|(n, f) l IH]; intros I N (st, ok); [reflexivity|]. cbn [fold_left]. rewrite IH; [|intros x Hx; apply I; right; exact Hx | intros K; apply N; right; exact K].
  destruct (existsb (bytes_eqb n) given); [reflexivity|]. destruct (env (shell_name n)) as [v|]; [|reflexivity].
  pose proof (effect n f v st (I _ (or_introl eq_refl))) as E. destruct (set_to f v st) as [st1 ok1]. cbn [fst] in *. rewrite E.
  destruct (bytes_eqb n n0) eqn:K; [apply bytes_eqb_eq in K; destruct N; left; exact K | reflexivity].
Qed.
Lemma env_var given env st : NoDup (map fst fs) -> In n0 (map fst fs) ->
  pr (fst (args_from_env fs given env st)) =
  if existsb (bytes_eqb n0) given then pr st else match env (shell_name n0) with Some v => upd v (pr st) | None => pr st end.
Proof.
  intros D I. apply in_map_iff in I. destruct I as ((n, f) & E & I). cbn [fst] in E. subst n. apply in_split in I. destruct I as (l1 & l2 & E).
  rewrite E in D. rewrite map_app in D. cbn [map fst] in D. apply NoDup_remove in D. destruct D as (_ & D). unfold args_from_env.
  assert (I1 : incl l1 fs /\ incl l2 fs /\ In (n0, f) fs).
  { rewrite E. split; [intros x Hx; apply in_or_app; auto|]. split; [intros x Hx; apply in_or_app; right; right; exact Hx | apply in_or_app; right; left; reflexivity]. }
  destruct I1 as (I1 & I2 & I3). rewrite E, fold_left_app. cbn [fold_left].
  pose proof (env_other given env l1 I1 (fun K => D (in_or_app _ _ _ (or_introl K))) (st, true)) as E1. cbn [fst] in E1.
  rewrite (env_other given env l2 I2 (fun K => D (in_or_app _ _ _ (or_intror K)))).
  match goal with |- context[fold_left ?g l1 ?a] => destruct (fold_left g l1 a) as [st1 ok1] end. cbn [fst] in E1.
  destruct (existsb (bytes_eqb n0) given); [exact E1|]. destruct (env (shell_name n0)) as [v|]; [|exact E1].
  pose proof (effect n0 f v st1 I3) as Ef. destruct (set_to f v st1) as [st2 ok2]. cbn [fst] in *. rewrite Ef, bytes_eqb_refl, E1. reflexivity.
Qed.
(** ... by the command line and the environment *)
Lemma whole_var occ env st st' : NoDup (map fst fs) -> In n0 (map fst fs) -> sets occ st = Some st' ->
  exists su ts, texts occ env n0 (shell_name n0) su ts /\
    pr (fst (args_from_env fs (rev (map fst occ)) env st')) = fold_left (fun a v => upd v a) ts (pr st) /\
    (su = true -> forall t, In t ts -> In (n0, t) occ).
Proof.
  intros D I H. assert (V : exists vs, values_of n0 occ vs /\ forall v, In v vs -> In (n0, v) occ).
  { clear H. induction occ as [|(m, v) occ (vs & IH & IH2)]; [exists []; split; [constructor | intros v []]|]. destruct (bytes_eqb m n0) eqn:K.
    - apply bytes_eqb_eq in K. subst m. exists (v :: vs). split; [constructor; exact IH|]. intros w [->|Hw]; [left; reflexivity | right; auto].
    - exists vs. split; [constructor; [intros ->; rewrite bytes_eqb_refl in K; discriminate K | exact IH] | intros w Hw; right; auto]. }
  destruct V as (vs & V & V2). pose proof (sets_var occ st st' vs H V) as E. rewrite env_var by assumption.
  assert (G : existsb (bytes_eqb n0) (rev (map fst occ)) = match vs with [] => false | _ => true end).
  { clear -V. destruct vs as [|v vs].
    - apply Bool.not_true_iff_false. rewrite existsb_exists. intros (x & Hx & E). apply bytes_eqb_eq in E. subst x. apply in_rev in Hx.
      remember [] as l. induction V; [destruct Hx | discriminate Heql | destruct Hx as [Hx|Hx]; auto].
    - apply existsb_exists. exists n0. split; [|apply bytes_eqb_refl]. apply -> in_rev. remember (v :: vs) as l.
      induction V; [discriminate Heql | left; reflexivity | right; auto]. }
  rewrite G. destruct vs as [|v vs].
  - exists false, (match env (shell_name n0) with Some v => [v] | None => [] end). split; [exists []; split; [exact V | right; auto]|].
    split; [|discriminate]. cbn [fold_left] in E. rewrite E. destruct (env (shell_name n0)); reflexivity.
  - exists true, (v :: vs). split; [exists (v :: vs); split; [exact V | left; split; [discriminate | auto]]|]. split; [exact E | intros _; exact V2].
Qed.
End OneVariable.
End Parse.
