(** The order of the members of an object does not matter when it is read into a
    struct; members with other names do not matter either. *)
From Coq Require Import Strings.String List NArith ZArith Lia Permutation.
From Verif Require Import GoBase GoBaseFacts GoTime Json Rfc3339 Inetdiag Netlink Archive EventServer EventClient SpecShuffle.
Import ListNotations.
Local Open Scope list_scope.

Section Fields.
Context {A : Type} (field : bytes -> json -> A -> option A).
Definition then_ (x : option A) (f : A -> option A) : option A := match x with Some a => f a | None => None end.
Definition commutes : Prop := forall k1 v1 k2 v2 a, fold_key k1 <> fold_key k2 ->
  then_ (field k1 v1 a) (field k2 v2) = then_ (field k2 v2 a) (field k1 v1).
Definition blind : Prop := forall k v v' a, shuffled v v' -> field k v a = field k v' a.

Lemma apart_sym a b : apart a b -> apart b a.
Proof. unfold apart. intros H E. apply H. symmetry. exact E. Qed.
Lemma apart_perm l l' : Permutation l l' -> ForallOrdPairs apart l -> ForallOrdPairs apart l'.
Proof.
  induction 1 as [|x l l' P IH|x y l|l l2 l3 P1 IH1 P2 IH2]; intros H; auto.
  - inversion H as [|? ? F O]; subst. constructor; [|exact (IH O)]. eapply Permutation_Forall; [exact P|exact F].
  - inversion H as [|? ? F O]; subst. inversion O as [|? ? F2 O2]; subst. inversion F as [|? ? Fx Fl]; subst.
    constructor; [constructor; [apply apart_sym; exact Fx|exact F2]|]. constructor; assumption.
Qed.
Lemma fields_perm : commutes -> forall l l', Permutation l l' -> ForallOrdPairs apart l -> forall a, read_fields field l a = read_fields field l' a.
Proof.
  intros C l l' P. induction P as [|[k v] l l' P IH|[k v] [k2 v2] l|l l2 l3 P1 IH1 P2 IH2]; intros H a; auto.
  - cbn [read_fields]. inversion H; subst. destruct (field (unquote k) v a); auto.
  - cbn [read_fields]. inversion H as [|? ? F O]; subst. inversion F as [|? ? Fx Fl]; subst. pose proof (C _ v2 _ v a Fx) as E. cbn [fst] in E. unfold then_ in E.
    destruct (field (unquote k) v a) as [a1|], (field (unquote k2) v2 a) as [a2|]; cbn in *; auto.
    + rewrite E. reflexivity.
    + rewrite <- E. reflexivity.
    + rewrite E. reflexivity.
  - rewrite IH1 by exact H. apply IH2. eapply apart_perm; [exact P1|exact H].
Qed.
Lemma fields_shuffled : commutes -> blind -> forall l l', shuffled (JObj l) (JObj l') -> forall a, read_fields field l a = read_fields field l' a.
Proof.
  intros C B l l' H a. inversion H as [|l0 m l0' F O P]; subst; [reflexivity|].
  assert (E : forall a, read_fields field l a = read_fields field m a).
  { clear O P H. induction F as [|[k v] [k2 v2] l m [E S] F IH]; intros a'; [reflexivity|]. cbn [fst snd] in *. subst k2. cbn [read_fields].
    rewrite (B _ _ _ a' S). destruct (field (unquote k) v2 a'); auto. }
  rewrite E. apply fields_perm; [exact C|exact P|].
  clear -F O. revert m F. induction O as [|x l Fx O IH]; intros m F; inversion F as [|? y ? m' [E S] F']; subst; constructor; [|apply IH; exact F'].
  clear -E Fx F'. induction F' as [|z z' l m' [E' S'] F' IH]; constructor; inversion Fx; subst; [|apply IH; assumption].
  unfold apart in *. rewrite <- E, <- E'. assumption.
Qed.
Lemma fields_unknown names l1 k v l2 : (forall k v a, Forall (fun f => map lower f <> fold_key k) names -> field k v a = Some a) ->
  unknown names k -> forall a, read_fields field (l1 ++ (k, v) :: l2) a = read_fields field (l1 ++ l2) a.
Proof.
  intros H U. induction l1 as [|[k1 v1] l1 IH]; intros a; cbn [app read_fields]; [rewrite (H _ _ _ U); reflexivity|].
  destruct (field (unquote k1) v1 a); auto.
Qed.
End Fields.

Lemma shuffled_perm l l' : ForallOrdPairs apart l -> Permutation l l' -> shuffled (JObj l) (JObj l').
Proof. intros H P. apply (shuffled_object l l l'); [|exact H|exact P]. clear. induction l; constructor; [split; [reflexivity|constructor]|assumption]. Qed.
Lemma shuffled_first k v v' l l' : shuffled v v' -> ForallOrdPairs apart ((k, v) :: l) -> Permutation ((k, v') :: l) l' -> shuffled (JObj ((k, v) :: l)) (JObj l').
Proof.
  intros S H P. apply (shuffled_object _ ((k, v') :: l) _); [|exact H|exact P]. constructor; [split; [reflexivity|exact S]|].
  clear. induction l; constructor; [split; [reflexivity|constructor]|assumption].
Qed.

(** ** Readers of values *)
Lemma shuffled_inv v v' : shuffled v v' -> v = v' \/ exists l l', v = JObj l /\ v' = JObj l'.
Proof. intros H. inversion H; subst; eauto. Qed.
Lemma read_int_blind lo hi v v' o : shuffled v v' -> read_int lo hi v o = read_int lo hi v' o.
Proof. intros H. destruct (shuffled_inv _ _ H) as [->|(l & l' & -> & ->)]; reflexivity. Qed.
Lemma read_uint_blind hi v v' o : shuffled v v' -> read_uint hi v o = read_uint hi v' o.
Proof. intros H. destruct (shuffled_inv _ _ H) as [->|(l & l' & -> & ->)]; reflexivity. Qed.
Lemma read_string_blind v v' o : shuffled v v' -> read_string v o = read_string v' o.
Proof. intros H. destruct (shuffled_inv _ _ H) as [->|(l & l' & -> & ->)]; reflexivity. Qed.
Lemma read_time_blind v v' o : shuffled v v' -> read_time v o = read_time v' o.
Proof. intros H. destruct (shuffled_inv _ _ H) as [->|(l & l' & -> & ->)]; reflexivity. Qed.
Lemma read_bytes_blind v v' : shuffled v v' -> read_bytes v = read_bytes v'.
Proof. intros H. destruct (shuffled_inv _ _ H) as [->|(l & l' & -> & ->)]; reflexivity. Qed.
Lemma read_attrs_blind v v' : shuffled v v' -> read_attrs v = read_attrs v'.
Proof. intros H. destruct (shuffled_inv _ _ H) as [->|(l & l' & -> & ->)]; reflexivity. Qed.

Lemma same_key_eq f k : same_key f k = true <-> map lower f = fold_key k.
Proof. apply bytes_eqb_eq. Qed.
Lemma same_key_no names k f : Forall (fun f => map lower f <> fold_key k) names -> In f names -> same_key f k = false.
Proof.
  intros H I. rewrite List.Forall_forall in H. specialize (H f I). destruct (same_key f k) eqn:E; [|reflexivity]. exfalso. apply H, same_key_eq, E.
Qed.

Ltac keys :=
  repeat match goal with |- context [if same_key ?f ?k then _ else _] => let E := fresh "E" in destruct (same_key f k) eqn:E end;
  try reflexivity;
  try (exfalso; match goal with N : fold_key ?a <> fold_key ?b, E1 : same_key _ ?a = true, E2 : same_key _ ?b = true |- _ =>
         apply N; rewrite <- (proj1 (same_key_eq _ _) E1), <- (proj1 (same_key_eq _ _) E2); reflexivity end).
Ltac reads := repeat match goal with |- context [match ?x with Some _ => _ | None => _ end] =>
  lazymatch x with context [match _ with Some _ => _ | None => _ end] => fail | _ => let R := fresh "R" in destruct x eqn:R; cbn; rewrite ?R; try reflexivity end end.

Local Opaque read_uint read_int read_string read_time read_bytes read_attrs.
(** ** Events *)
Lemma sockid_commutes : commutes sockid_field.
Proof.
  intros k1 v1 k2 v2 a N. unfold sockid_field, then_. keys; unfold option_map; reads; congruence.
Qed.
Lemma sockid_blind : blind sockid_field.
Proof.
  intros k v v' a H. unfold sockid_field. rewrite !(read_uint_blind _ _ _ _ H), !(read_string_blind _ _ _ H), !(read_int_blind _ _ _ _ _ H). reflexivity.
Qed.
Lemma read_sockid_blind v v' o : shuffled v v' -> read_sockid v o = read_sockid v' o.
Proof.
  intros H. destruct (shuffled_inv _ _ H) as [->|(l & l' & -> & ->)]; [reflexivity|]. cbn [read_sockid]. f_equal.
  apply (fields_shuffled sockid_field sockid_commutes sockid_blind). exact H.
Qed.
Local Opaque read_sockid.
Lemma event_commutes : commutes event_field.
Proof. intros k1 v1 k2 v2 a N. unfold event_field, then_. keys; unfold option_map; reads; congruence. Qed.
Lemma event_blind : blind event_field.
Proof.
  intros k v v' a H. unfold event_field. rewrite !(read_string_blind _ _ _ H), !(read_int_blind _ _ _ _ _ H), !(read_time_blind _ _ _ H), !(read_sockid_blind _ _ _ H). reflexivity.
Qed.
Lemma unmarshal_event_shuffled b b' j j' : parse b = Some j -> parse b' = Some j' -> shuffled j j' -> unmarshal_event b = unmarshal_event b'.
Proof.
  intros P P' H. unfold unmarshal_event. rewrite P, P'. destruct (shuffled_inv _ _ H) as [->|(l & l' & -> & ->)]; [reflexivity|].
  rewrite (fields_shuffled event_field event_commutes event_blind l l' H). reflexivity.
Qed.
Lemma unmarshal_event_unknown b b' l1 k v l2 : parse b = Some (JObj (l1 ++ (k, v) :: l2)) -> parse b' = Some (JObj (l1 ++ l2)) ->
  unknown [str "Event"; str "Timestamp"; str "UUID"; str "ID"] k -> unmarshal_event b = unmarshal_event b'.
Proof.
  intros P P' U. unfold unmarshal_event. rewrite P, P', (fields_unknown event_field [str "Event"; str "Timestamp"; str "UUID"; str "ID"]); [reflexivity| |exact U].
  intros k0 v0 a H. unfold event_field. rewrite !(same_key_no _ k0 _ H) by (cbn; tauto). reflexivity.
Qed.

(** ** Records *)
Lemma metadata_commutes : commutes metadata_field.
Proof. intros k1 v1 k2 v2 a N. unfold metadata_field, then_. keys; reads; congruence. Qed.
Lemma metadata_blind : blind metadata_field.
Proof. intros k v v' a H. unfold metadata_field. rewrite !(read_string_blind _ _ _ H), !(read_int_blind _ _ _ _ _ H), !(read_time_blind _ _ _ H). reflexivity. Qed.
Lemma read_metadata_blind v v' o : shuffled v v' -> read_metadata v o = read_metadata v' o.
Proof.
  intros H. destruct (shuffled_inv _ _ H) as [->|(l & l' & -> & ->)]; [reflexivity|]. cbn [read_metadata].
  rewrite (fields_shuffled metadata_field metadata_commutes metadata_blind l l' H). reflexivity.
Qed.
Local Opaque read_metadata.
Lemma archival_commutes : commutes archival_field.
Proof. intros k1 v1 k2 v2 a N. unfold archival_field, then_. keys; reads; congruence. Qed.
Lemma archival_blind : blind archival_field.
Proof.
  intros k v v' a H. unfold archival_field. rewrite !(read_time_blind _ _ _ H), !(read_bytes_blind _ _ H), !(read_attrs_blind _ _ H), !(read_metadata_blind _ _ _ H). reflexivity.
Qed.
Lemma unmarshal_shuffled b b' j j' : parse b = Some j -> parse b' = Some j' -> shuffled j j' -> unmarshal b = unmarshal b'.
Proof.
  intros P P' H. unfold unmarshal. rewrite P, P'. destruct (shuffled_inv _ _ H) as [->|(l & l' & -> & ->)]; [reflexivity|].
  rewrite (fields_shuffled archival_field archival_commutes archival_blind l l' H). reflexivity.
Qed.
Lemma unmarshal_unknown b b' l1 k v l2 : parse b = Some (JObj (l1 ++ (k, v) :: l2)) -> parse b' = Some (JObj (l1 ++ l2)) ->
  unknown [str "Timestamp"; str "RawIDM"; str "Attributes"; str "Metadata"] k -> unmarshal b = unmarshal b'.
Proof.
  intros P P' U. unfold unmarshal. rewrite P, P', (fields_unknown archival_field [str "Timestamp"; str "RawIDM"; str "Attributes"; str "Metadata"]); [reflexivity| |exact U].
  intros k0 v0 a H. unfold archival_field. rewrite !(same_key_no _ k0 _ H) by (cbn; tauto). reflexivity.
Qed.

(** ** Missing members *)
Lemma fields_missing {A B} (field : bytes -> json -> A -> option A) (get : A -> B) f :
  (forall k v a a', map lower f <> fold_key k -> field k v a = Some a' -> get a' = get a) ->
  forall l a a', missing f l -> read_fields field l a = Some a' -> get a' = get a.
Proof.
  intros K. induction l as [|[k v] l IH]; intros a a' M H; cbn [read_fields] in H; [congruence|].
  inversion M as [|? ? N M']; subst. cbn [fst] in N. destruct (field (unquote k) v a) as [b|] eqn:E; [|discriminate].
  rewrite (IH _ _ M' H). exact (K _ _ _ _ N E).
Qed.
Ltac absent f :=
  intros k v a a' N; unfold event_field, archival_field, option_map;
  let E := fresh in assert (E : same_key f k = false) by (apply Bool.not_true_iff_false; intros E; apply same_key_eq in E; exact (N E)); rewrite E; clear E;
  repeat match goal with |- context [if same_key ?g ?k then _ else _] => destruct (same_key g k) end;
  try match goal with |- context [match ?x with Some _ => _ | None => _ end] => destruct x end; intros E; try discriminate E; injection E as <-; reflexivity.
Lemma event_missing b l e : parse b = Some (JObj l) -> unmarshal_event b = Ret e ->
  (missing (str "Event") l -> fe_event e = 0%Z) /\ (missing (str "Timestamp") l -> fe_time e = zero_time) /\
  (missing (str "UUID") l -> fe_uuid e = []) /\ (missing (str "ID") l -> fe_id e = None).
Proof.
  intros P U. unfold unmarshal_event in U. rewrite P in U. destruct (read_fields event_field l zero_event) as [e'|] eqn:E; [|discriminate]. injection U as ->.
  split; [|split; [|split]]; intros M.
  - refine (fields_missing event_field fe_event (str "Event") _ l _ _ M E). absent (str "Event").
  - refine (fields_missing event_field fe_time (str "Timestamp") _ l _ _ M E). absent (str "Timestamp").
  - refine (fields_missing event_field fe_uuid (str "UUID") _ l _ _ M E). absent (str "UUID").
  - refine (fields_missing event_field fe_id (str "ID") _ l _ _ M E). absent (str "ID").
Qed.
Lemma record_missing b l r : parse b = Some (JObj l) -> unmarshal b = Ret r ->
  (missing (str "Timestamp") l -> ar_time r = zero_time) /\ (missing (str "RawIDM") l -> ar_raw r = None) /\
  (missing (str "Attributes") l -> ar_attrs r = []) /\ (missing (str "Metadata") l -> ar_meta r = None).
Proof.
  intros P U. unfold unmarshal in U. rewrite P in U. destruct (read_fields archival_field l zero_archival) as [r'|] eqn:E; [|discriminate]. injection U as ->.
  split; [|split; [|split]]; intros M.
  - refine (fields_missing archival_field ar_time (str "Timestamp") _ l _ _ M E). absent (str "Timestamp").
  - refine (fields_missing archival_field ar_raw (str "RawIDM") _ l _ _ M E). absent (str "RawIDM").
  - refine (fields_missing archival_field ar_attrs (str "Attributes") _ l _ _ M E). absent (str "Attributes").
  - refine (fields_missing archival_field ar_meta (str "Metadata") _ l _ _ M E). absent (str "Metadata").
Qed.
