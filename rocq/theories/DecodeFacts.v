(** What json.Unmarshal makes of a text is what the text says. *)
From Coq Require Import Strings.String List NArith ZArith Bool Lia ZifyBool ZifyN ZifyNat.
From Verif Require Import GoBase GoBaseFacts GoTime Rfc3339 Json Base64 Netlink Inetdiag Archive EventServer EventClient.
From Verif Require Import SpecJson SpecGrammar SpecDecode JsonFacts GrammarFacts SpellFacts StampFacts.
Import ListNotations.
Local Open Scope list_scope.

(** ** The literals in a text *)
Inductive sound : json -> Prop :=
| sound_null : sound JNull
| sound_bool b : sound (JBool b)
| sound_num s : number s -> sound (JNum s)
| sound_str s : chars s -> sound (JStr s)
| sound_arr l : Forall sound l -> sound (JArr l)
| sound_obj l : Forall (fun m => chars (fst m) /\ sound (snd m)) l -> sound (JObj l).
Lemma grammar_sound :
  (forall j b, text j b -> sound j) /\ (forall j b, spaced j b -> sound j) /\ (forall l b, items l b -> Forall sound l) /\
  (forall m b, pair m b -> chars (fst m) /\ sound (snd m)) /\ (forall l b, pairs l b -> Forall (fun m => chars (fst m) /\ sound (snd m)) l).
Proof. apply grammar_mind; intros; try (constructor; auto; fail); auto. Qed.

Lemma lower_cases c d : lower c = lower d <-> c = d \/ (97 <= bval c <= 122 /\ d = byte_of (bval c - 32))%N \/ (65 <= bval c <= 90 /\ d = byte_of (bval c + 32))%N.
Proof.
  unfold lower, between. pose proof (bval_lt c) as Bc. pose proof (bval_lt d) as Bd. split.
  - intros E. assert (V : bval (if ((65 <=? bval c) && (bval c <=? 90))%N then byte_of (bval c + 32) else c)
                        = bval (if ((65 <=? bval d) && (bval d <=? 90))%N then byte_of (bval d + 32) else d)) by congruence. clear E.
    destruct (N.leb_spec 65 (bval c)), (N.leb_spec (bval c) 90), (N.leb_spec 65 (bval d)), (N.leb_spec (bval d) 90); cbn [andb] in V; rewrite ?bval_small in V by lia;
      first [left; apply bval_inj; lia | right; left; split; [lia|apply bval_inj; rewrite bval_small; lia] | right; right; split; [lia|apply bval_inj; rewrite bval_small; lia]].
  - intros [->|[[R ->]|[R ->]]]; [reflexivity| |]; rewrite bval_small by lia.
    + destruct (N.leb_spec 65 (bval c)), (N.leb_spec (bval c) 90), (N.leb_spec 65 (bval c - 32)), (N.leb_spec (bval c - 32) 90); try lia; cbn [andb].
      apply bval_inj. rewrite bval_small by lia. lia.
    + destruct (N.leb_spec 65 (bval c)), (N.leb_spec (bval c) 90), (N.leb_spec 65 (bval c + 32)), (N.leb_spec (bval c + 32) 90); try lia; reflexivity.
Qed.
Lemma fold_ascii c k : (bval c < 128)%N -> fold_key (c :: k) = lower c :: fold_key k.
Proof.
  intros B. assert (N1 : Byte.eqb c xc5 = false) by (destruct (Byte.eqb c xc5) eqn:E; [apply Byte.byte_dec_bl in E; subst; exfalso; vm_compute in B; discriminate B|reflexivity]).
  assert (N2 : Byte.eqb c xe2 = false) by (destruct (Byte.eqb c xe2) eqn:E; [apply Byte.byte_dec_bl in E; subst; exfalso; vm_compute in B; discriminate B|reflexivity]).
  destruct k as [|d [|e k]]; [reflexivity| |]; cbn [fold_key]; rewrite N1; [reflexivity|]. rewrite N2. reflexivity.
Qed.
Lemma fold_wide c k : (128 <= bval c)%N ->
  (exists k', c = xc5 /\ k = xbf :: k' /\ fold_key (c :: k) = x73 :: fold_key k') \/ (exists k', c = xe2 /\ k = x84 :: xaa :: k' /\ fold_key (c :: k) = x6b :: fold_key k') \/
  exists r, fold_key (c :: k) = c :: r.
Proof.
  intros B. assert (L : lower c = c).
  { unfold lower, between. destruct (N.leb_spec 65 (bval c)), (N.leb_spec (bval c) 90); cbn [andb]; reflexivity || lia. }
  destruct k as [|d k]; [right; right; exists []; cbn; rewrite L; reflexivity|].
  destruct (Byte.eqb c xc5 && Byte.eqb d xbf) eqn:E1.
  { apply andb_true_iff in E1 as [Ec Ed]. apply Byte.byte_dec_bl in Ec, Ed. subst. left. exists k. auto. }
  destruct k as [|e k]; [right; right; exists (fold_key [d]); cbn [fold_key]; rewrite E1, L; reflexivity|].
  destruct (Byte.eqb c xe2 && Byte.eqb d x84 && Byte.eqb e xaa) eqn:E2.
  { apply andb_true_iff in E2 as [E2 Ee]. apply andb_true_iff in E2 as [Ec Ed]. apply Byte.byte_dec_bl in Ec, Ed, Ee. subst. right. left. exists k. auto. }
  right. right. exists (fold_key (d :: e :: k)). cbn [fold_key]. rewrite E1, E2, L. reflexivity.
Qed.
Lemma lower_ascii c : (bval c < 128)%N -> (bval (lower c) < 128)%N.
Proof. unfold lower, between. intros B. destruct (N.leb_spec 65 (bval c)), (N.leb_spec (bval c) 90); cbn [andb]; rewrite ?bval_small; lia. Qed.
Lemma lower_letter c u : lower c = byte_of (u + 32) -> (65 <= u <= 90)%N -> c = byte_of (u + 32) \/ c = byte_of u.
Proof.
  intros E U. assert (X : lower c = lower (byte_of u)).
  { rewrite E. unfold lower, between. rewrite bval_small by lia. destruct (N.leb_spec 65 u), (N.leb_spec u 90); cbn [andb]; reflexivity || lia. }
  symmetry in X. apply lower_cases in X as [<-|[[R ->]|[R ->]]].
  - right. reflexivity.
  - rewrite bval_small in R by lia. lia.
  - left. rewrite bval_small by lia. reflexivity.
Qed.
Lemma alike_iff f s : Forall (fun c => (bval c < 128)%N) f -> (alike f s <-> map lower f = fold_key s).
Proof.
  intros Af. split.
  - intros H. induction H as [|c f k H IH|c f k R H IH|c f k R H IH|c f k R H IH|c f k R H IH]; [reflexivity|..]; inversion Af as [|? ? Bc Af']; subst; specialize (IH Af').
    + rewrite fold_ascii by exact Bc. cbn [map]. rewrite IH. reflexivity.
    + rewrite fold_ascii by (rewrite bval_small; lia). cbn [map]. rewrite IH. f_equal. apply lower_cases. right. left. auto.
    + rewrite fold_ascii by (rewrite bval_small; lia). cbn [map]. rewrite IH. f_equal. apply lower_cases. right. right. auto.
    + change (map lower (c :: f) = x73 :: fold_key k). rewrite <- IH. destruct R as [-> | ->]; reflexivity.
    + change (map lower (c :: f) = x6b :: fold_key k). rewrite <- IH. destruct R as [-> | ->]; reflexivity.
  - remember (length s) as n eqn:L. assert (Ln : length s <= n) by lia. clear L. revert f s Af Ln. induction n as [|n IH]; intros f s Af Ln E.
    { destruct s; [|cbn in Ln; lia]. destruct f; [constructor|discriminate E]. }
    destruct s as [|c s]; [destruct f; [constructor|discriminate E]|]. cbn [length] in Ln.
    destruct (N.ltb_spec (bval c) 128) as [B|B].
    + rewrite (fold_ascii _ _ B) in E. destruct f as [|d f]; [discriminate E|]. cbn [map] in E. injection E as E0 E. inversion Af as [|? ? Bd Af']; subst.
      assert (H : alike f s) by (apply IH; [exact Af'|lia|exact E]).
      apply lower_cases in E0 as [<-|[[R ->]|[R ->]]]; constructor; assumption.
    + destruct (fold_wide c s B) as [(k' & -> & -> & F)|[(k' & -> & -> & F)|(r & F)]]; rewrite F in E; (destruct f as [|d f]; [discriminate E|]); cbn [map] in E; injection E as E0 E;
        inversion Af as [|? ? Bd Af']; subst; cbn [length] in Ln.
      * apply alike_long_s; [|apply IH; [exact Af'|lia|exact E]]. apply (lower_letter d 83) in E0; [exact E0|lia].
      * apply alike_kelvin; [|apply IH; [exact Af'|lia|exact E]]. apply (lower_letter d 75) in E0; [exact E0|lia].
      * apply lower_ascii in Bd. lia.
Qed.
Lemma called_iff f k : Forall (fun c => (bval c < 128)%N) f -> chars k -> (called f k <-> map lower f = fold_key (unquote k)).
Proof.
  intros Af C. unfold called. split.
  - intros (s & S & E). apply unquote_spells in S as <-; [apply alike_iff|]; assumption.
  - intros E. exists (unquote k). split; [apply unquote_spells; auto|apply alike_iff; assumption].
Qed.
Lemma key_iff f k : same_key f k = true <-> map lower f = fold_key k.
Proof. unfold same_key. apply bytes_eqb_eq. Qed.

(** ** Reading an object into a struct *)
Record slot (A : Type) := mkslot { slot_type : Type; slot_name : bytes; slot_get : A -> slot_type; slot_read : json -> slot_type -> option slot_type }.
Arguments mkslot {A} _ _ _ _. Arguments slot_type {A} _. Arguments slot_name {A} _. Arguments slot_get {A} _ _. Arguments slot_read {A} _ _ _.

Section Fields.
Context {A : Type} (field : bytes -> json -> A -> option A) (slots : list (slot A)).
(** Two values with the same fields are the same. *)
Hypothesis ext : forall a a', (forall s, In s slots -> slot_get s a = slot_get s a') -> a = a'.
(** One field of a value can be changed to that of another. *)
Hypothesis mix : forall s a a', In s slots -> exists a1, slot_get s a1 = slot_get s a' /\
  forall s', In s' slots -> slot_name s' <> slot_name s -> slot_get s' a1 = slot_get s' a.
Hypothesis step : forall s k v a a', In s slots -> map lower (slot_name s) = fold_key k ->
  (field k v a = Some a' <-> slot_read s v (slot_get s a) = Some (slot_get s a') /\
     forall s', In s' slots -> slot_name s' <> slot_name s -> slot_get s' a' = slot_get s' a).
Hypothesis skip : forall k v a, (forall s, In s slots -> map lower (slot_name s) <> fold_key k) -> field k v a = Some a.
Hypothesis names : forall s s', In s slots -> In s' slots -> map lower (slot_name s) = map lower (slot_name s') -> s = s'.
Hypothesis same_dec : forall s s', In s slots -> In s' slots -> s = s' \/ slot_name s <> slot_name s'.

Definition takes (l : list (bytes * json)) (s : slot A) (a a' : A) : Prop :=
  (slot_get s a' = slot_get s a /\ forall k v, In (k, v) l -> map lower (slot_name s) <> fold_key (unquote k)) \/
  exists k v, In (k, v) l /\ map lower (slot_name s) = fold_key (unquote k) /\ slot_read s v (slot_get s a) = Some (slot_get s a').

Lemma find_slot k : (exists s, In s slots /\ map lower (slot_name s) = fold_key k) \/ (forall s, In s slots -> map lower (slot_name s) <> fold_key k).
Proof.
  clear. induction slots as [|s l IH]; [right; intros s []|]. destruct (bytes_eqb (map lower (slot_name s)) (fold_key k)) eqn:E.
  - left. exists s. split; [left; reflexivity|apply bytes_eqb_eq, E].
  - destruct IH as [(s' & I & E')|N]; [left; exists s'; split; [right; exact I|exact E']|].
    right. intros s' [<-|I]; [|apply N, I]. intros X. apply bytes_eqb_eq in X. congruence.
Qed.
Definition separate (l : list (bytes * json)) : Prop :=
  forall s, In s slots -> ForallOrdPairs (fun a b => ~ (map lower (slot_name s) = fold_key (unquote (fst a)) /\ map lower (slot_name s) = fold_key (unquote (fst b)))) l.
Lemma fields_takes l : separate l -> forall a a', read_fields field l a = Some a' <-> forall s, In s slots -> takes l s a a'.
Proof.
  induction l as [|[k v] l IH]; intros D a a'.
  - cbn [read_fields]. split.
    + intros [= <-] s I. left. split; [reflexivity|intros k v []].
    + intros T. f_equal. apply ext. intros s I. destruct (T s I) as [[E _]|(k & v & [] & _)]. symmetry. exact E.
  - assert (Dl : separate l) by (intros s I; specialize (D s I); inversion D; assumption). specialize (IH Dl). cbn [read_fields].
    assert (Only : forall (s : slot A) v' k', In s slots -> map lower (slot_name s) = fold_key (unquote k) -> In (k', v') l -> map lower (slot_name s) <> fold_key (unquote k')).
    { intros s v' k' Is E I E'. specialize (D s Is). inversion D as [|? ? Da _]; subst. apply (proj1 (Forall_forall _ _) Da) in I. apply I. split; assumption. }
    destruct (find_slot (unquote k)) as [(s0 & I0 & E0)|N].
    + split.
      * destruct (field (unquote k) v a) as [a1|] eqn:F; [|discriminate]. intros R. apply (step s0 _ _ _ _ I0 E0) in F as [F O].
        rewrite IH in R. intros s I. destruct (same_dec s s0 I I0) as [->|Ns].
        -- right. exists k, v. split; [left; reflexivity|]. split; [exact E0|].
           destruct (R s0 I0) as [[E _]|(k' & v' & I' & E' & _)]; [rewrite E; exact F|]. exfalso. exact (Only s0 v' k' I0 E0 I' E').
        -- destruct (R s I) as [[E Ab]|(k' & v' & I' & E' & Rd)].
           ++ left. split; [rewrite E; apply O; assumption|]. intros k' v' [[= <- <-]|I']; [|apply (Ab _ _ I')].
              intros X. apply Ns. f_equal. apply names; congruence.
           ++ right. exists k', v'. split; [right; exact I'|]. split; [exact E'|]. rewrite <- (O s I Ns). exact Rd.
      * intros T. destruct (mix s0 a a' I0) as (a1 & M1 & M2).
        assert (F : field (unquote k) v a = Some a1).
        { apply (step s0 _ _ _ _ I0 E0). split; [|exact M2]. rewrite M1. destruct (T s0 I0) as [[_ Ab]|(k' & v' & [[= <- <-]|I'] & E' & Rd)].
          - exfalso. exact (Ab k v (or_introl eq_refl) E0).
          - exact Rd.
          - exfalso. exact (Only s0 v' k' I0 E0 I' E'). }
        rewrite F. apply IH. intros s I. destruct (same_dec s s0 I I0) as [->|Ns].
        -- left. split; [symmetry; exact M1|]. intros k' v' I'. exact (Only s0 v' k' I0 E0 I').
        -- destruct (T s I) as [[E Ab]|(k' & v' & I' & E' & Rd)].
           ++ left. split; [rewrite (M2 s I Ns); exact E|]. intros k' v' I'. apply (Ab k' v'). right. exact I'.
           ++ right. exists k', v'. split; [|split; [exact E'|rewrite (M2 s I Ns); exact Rd]].
              destruct I' as [[= -> ->]|I']; [|exact I']. exfalso. apply Ns. f_equal. apply names; congruence.
    + rewrite (skip _ _ _ N), IH. split; intros T s I.
      * destruct (T s I) as [[E Ab]|(k' & v' & I' & E' & Rd)].
        -- left. split; [exact E|]. intros k' v' [[= <- <-]|I']; [apply N, I|apply (Ab _ _ I')].
        -- right. exists k', v'. split; [right; exact I'|]. split; assumption.
      * destruct (T s I) as [[E Ab]|(k' & v' & I' & E' & Rd)].
        -- left. split; [exact E|]. intros k' v' I'. apply (Ab k' v'). right. exact I'.
        -- right. exists k', v'. split; [|split; assumption]. destruct I' as [[= -> ->]|I']; [|exact I']. exfalso. exact (N s I E').
Qed.

(** The same as the specification has it *)
Definition ascii (f : bytes) : Prop := Forall (fun c => (bval c < 128)%N) f.
Lemma takes_says l s (R : json -> slot_type s -> Prop) a a' : ascii (slot_name s) ->
  Forall (fun m => chars (fst m) /\ sound (snd m)) l ->
  (forall k v x, In (k, v) l -> called (slot_name s) k -> (slot_read s v (slot_get s a) = Some x <-> (v = JNull /\ x = slot_get s a) \/ R v x)) ->
  (takes l s a a' <-> says l (slot_name s) R (slot_get s a) (slot_get s a')).
Proof.
  clear. intros Af W H. assert (C : forall k v, In (k, v) l -> chars k) by (intros k v I; apply (proj1 (Forall_forall _ _) W (k, v) I)).
  unfold takes, says. split; (intros [[E Ab]|(k & v & I & E & Rd)]; [left|right]).
  - split; [exact E|]. intros k v I K. apply (called_iff _ _ Af (C _ _ I)) in K. exact (Ab k v I K).
  - assert (K : called (slot_name s) k) by (apply (called_iff _ _ Af (C _ _ I)), E). exists k, v. split; [exact I|]. split; [exact K|]. apply (H k v); assumption.
  - split; [exact E|]. intros k v I K. apply (Ab k v I). apply (called_iff _ _ Af (C _ _ I)), K.
  - exists k, v. split; [exact I|]. split; [apply (called_iff _ _ Af (C _ _ I)), E|]. apply (H k v); assumption.
Qed.
Lemma once_separate l : (forall s, In s slots -> ascii (slot_name s)) -> Forall (fun m => chars (fst m) /\ sound (snd m)) l -> once (map slot_name slots) l -> separate l.
Proof.
  clear. intros Af W O s I. pose proof (proj1 (Forall_forall _ _) O _ (in_map _ _ _ I)) as P. cbv beta in P. clear O. specialize (Af s I).
  induction P as [|a l P Q IH]; [constructor|]. inversion W as [|? ? [C _] W']; subst. constructor; [|apply IH, W'].
  clear Q IH W. induction P as [|b l P0 P IH]; [constructor|]. inversion W' as [|? ? [C' _] W'']; subst. constructor; [|apply IH, W''].
  intros [E1 E2]. apply P0. split; apply called_iff; assumption.
Qed.
End Fields.
Arguments separate {A} slots l.

(** ** Literals *)
Lemma read_int_iff v old z : sound v ->
  (read_int min_int64 max_int64 v old = Some z <-> (v = JNull /\ z = old) \/ int_of v z).
Proof.
  intros S. unfold int_of. inversion S as [|b|s N|s C|l F|l F]; subst; cbn [read_int].
  - split; [intros [= <-]; left; auto|]. intros [[_ ->]|(raw & K & _)]; [reflexivity|discriminate K].
  - split; [discriminate|]. intros [[K _]|(raw & K & _)]; discriminate K.
  - rewrite (parse_int_spec _ _ _ _ N). split.
    + intros [T B]. right. exists s. auto.
    + intros [[K _]|(raw & [= <-] & T & B)]; [discriminate K|]. auto.
  - split; [discriminate|]. intros [[K _]|(raw & K & _)]; discriminate K.
  - split; [discriminate|]. intros [[K _]|(raw & K & _)]; discriminate K.
  - split; [discriminate|]. intros [[K _]|(raw & K & _)]; discriminate K.
Qed.
Lemma parse_unsigned_nonneg hi raw z : parse_unsigned hi raw = Some z -> exists n, z = Z.of_N n.
Proof.
  unfold parse_unsigned. destruct raw as [|c raw]; [discriminate|]. destruct (uint_go 0 (c :: raw)) as [x|] eqn:U; [|discriminate].
  pose proof (uint_some _ _ _ U) as D. rewrite (Rfc3339Facts.uint_digits _ D) in U. injection U as <-. destruct (_ <=? hi)%Z; [|discriminate]. intros [= <-]. eauto.
Qed.
Lemma read_uint_iff max v old n : sound v ->
  (read_uint (Z.of_N max) v old = Some n <-> (v = JNull /\ n = old) \/ uint_of max v n).
Proof.
  intros S. unfold uint_of. inversion S as [|b|s N|s C|l F|l F]; subst; cbn [read_uint].
  - split; [intros [= <-]; left; auto|]. intros [[_ ->]|(raw & K & _)]; [reflexivity|discriminate K].
  - split; [discriminate|]. intros [[K _]|(raw & K & _)]; discriminate K.
  - split.
    + destruct (parse_unsigned (Z.of_N max) s) as [z|] eqn:P; [|discriminate]. intros [= <-]. destruct (parse_unsigned_nonneg _ _ _ P) as [m ->].
      apply (parse_unsigned_spec _ _ _ N) in P as [T B]. rewrite N2Z.id. right. exists s. split; [reflexivity|]. split; [exact T|lia].
    + intros [[K _]|(raw & [= <-] & T & B)]; [discriminate K|].
      rewrite (proj2 (parse_unsigned_spec (Z.of_N max) s n N)) by (split; [exact T|lia]). rewrite N2Z.id. reflexivity.
  - split; [discriminate|]. intros [[K _]|(raw & K & _)]; discriminate K.
  - split; [discriminate|]. intros [[K _]|(raw & K & _)]; discriminate K.
  - split; [discriminate|]. intros [[K _]|(raw & K & _)]; discriminate K.
Qed.
Lemma read_string_iff v old s : sound v -> (read_string v old = Some s <-> (v = JNull /\ s = old) \/ string_of v s).
Proof.
  intros S. unfold string_of. inversion S as [|b|r N|r C|l F|l F]; subst; cbn [read_string].
  - split; [intros [= <-]; left; auto|]. intros [[_ ->]|(raw & K & _)]; [reflexivity|discriminate K].
  - split; [discriminate|]. intros [[K _]|(raw & K & _)]; discriminate K.
  - split; [discriminate|]. intros [[K _]|(raw & K & _)]; discriminate K.
  - split.
    + intros [= <-]. right. exists r. split; [reflexivity|]. apply unquote_spells; auto.
    + intros [[K _]|(raw & [= <-] & T)]; [discriminate K|]. f_equal. apply unquote_spells; assumption.
  - split; [discriminate|]. intros [[K _]|(raw & K & _)]; discriminate K.
  - split; [discriminate|]. intros [[K _]|(raw & K & _)]; discriminate K.
Qed.
Lemma read_time_iff v old t : read_time v old = Some t <-> (v = JNull /\ t = old) \/ time_of v t.
Proof.
  unfold time_of. destruct v as [|b|r|r|l|l]; cbn [read_time].
  - split; [intros [= <-]; left; auto|]. intros [[_ ->]|(raw & K & _)]; [reflexivity|discriminate K].
  - split; [discriminate|]. intros [[K _]|(raw & K & _)]; discriminate K.
  - split; [discriminate|]. intros [[K _]|(raw & K & _)]; discriminate K.
  - rewrite unmarshal_time_iff. split; [intros H; right; exists r; auto|]. intros [[K _]|(raw & [= <-] & T)]; [discriminate K|exact T].
  - split; [discriminate|]. intros [[K _]|(raw & K & _)]; discriminate K.
  - split; [discriminate|]. intros [[K _]|(raw & K & _)]; discriminate K.
Qed.
Lemma octets_iff l : Forall sound l -> forall b, read_octets l = Some b <-> Forall2 octet_of l b.
Proof.
  induction 1 as [|v l S _ IH]; intros b; cbn [read_octets].
  - split; [intros [= <-]; constructor|intros H; inversion H; reflexivity].
  - assert (V : forall c, (exists z, (match v with JNull => Some 0%Z | JNum raw => parse_unsigned 255 raw | _ => None end) = Some z /\ c = byte_of (Z.to_N z)) <-> octet_of v c).
    { intros c. unfold octet_of, uint_of. inversion S as [|x|s N|s C|m F|m F]; subst.
      - split; [intros (z & [= <-] & ->); left; split; reflexivity|]. intros [[_ ->]|(n & (raw & K & _) & _)]; [exists 0%Z; split; reflexivity|discriminate K].
      - split; [intros (z & K & _); discriminate K|]. intros [[K _]|(n & (raw & K & _) & _)]; discriminate K.
      - split.
        + intros (z & P & ->). destruct (parse_unsigned_nonneg _ _ _ P) as [m ->]. apply (parse_unsigned_spec _ _ _ N) in P as [T B]. right.
          exists m. rewrite N2Z.id. split; [|reflexivity]. exists s. split; [reflexivity|]. split; [exact T|lia].
        + intros [[K _]|(n & (raw & [= <-] & T & B) & ->)]; [discriminate K|]. exists (Z.of_N n). rewrite N2Z.id. split; [|reflexivity].
          apply (parse_unsigned_spec 255 s n N). split; [exact T|lia].
      - split; [intros (z & K & _); discriminate K|]. intros [[K _]|(n & (raw & K & _) & _)]; discriminate K.
      - split; [intros (z & K & _); discriminate K|]. intros [[K _]|(n & (raw & K & _) & _)]; discriminate K.
      - split; [intros (z & K & _); discriminate K|]. intros [[K _]|(n & (raw & K & _) & _)]; discriminate K. }
    split.
    + destruct (match v with JNull => Some 0%Z | JNum raw => parse_unsigned 255 raw | _ => None end) as [z|] eqn:Z; [|discriminate].
      destruct (read_octets l) as [bs|] eqn:R; [|discriminate]. intros [= <-]. constructor; [|apply IH; reflexivity]. apply V. exists z. split; reflexivity.
    + intros H. inversion H as [|? c ? b' Hc Hb]; subst. apply V in Hc as (z & -> & ->). apply IH in Hb. rewrite Hb. reflexivity.
Qed.
Lemma read_bytes_iff v o : sound v -> (read_bytes v = Some o <-> (v = JNull /\ o = None) \/ bytes_of v o).
Proof.
  intros S. unfold bytes_of. inversion S as [|b|r N|r C|l F|l F]; subst; cbn [read_bytes].
  - split; [intros [= <-]; left; auto|]. intros [[_ ->]|(b & _ & [(raw & s & K & _)|(l & K & _)])]; [reflexivity|discriminate K|discriminate K].
  - split; [discriminate|]. intros [[K _]|(b' & _ & [(raw & s & K & _)|(l & K & _)])]; discriminate K.
  - split; [discriminate|]. intros [[K _]|(b' & _ & [(raw & s & K & _)|(l & K & _)])]; discriminate K.
  - split.
    + destruct (b64_decode (unquote r)) as [b|] eqn:B; [|discriminate]. intros [= <-]. apply base64_iff in B. right. exists b. split; [reflexivity|].
      left. exists r, (unquote r). split; [reflexivity|]. split; [apply unquote_spells; auto|exact B].
    + intros [[K _]|(b' & -> & [(raw & s & [= <-] & T & B)|(l & K & _)])]; [discriminate K| |discriminate K]. apply (unquote_spells _ _ C) in T. rewrite T.
      apply base64_iff in B. rewrite B. reflexivity.
  - split.
    + destruct (read_octets l) as [b|] eqn:B; [|discriminate]. intros [= <-]. apply (octets_iff l F) in B. right. exists b. split; [reflexivity|].
      right. exists l. split; [reflexivity|exact B].
    + intros [[K _]|(b' & -> & [(raw & s & K & _)|(l' & [= <-] & B)])]; [discriminate K|discriminate K|]. apply (octets_iff l F) in B. rewrite B. reflexivity.
  - split; [discriminate|]. intros [[K _]|(b' & _ & [(raw & s & K & _)|(l' & K & _)])]; discriminate K.
Qed.
Lemma read_all_iff l : Forall sound l -> forall a, read_all_bytes l = Some a <-> Forall2 slot_of l a.
Proof.
  induction 1 as [|v l S _ IH]; intros a; cbn [read_all_bytes].
  - split; [intros [= <-]; constructor|intros H; inversion H; reflexivity].
  - split.
    + destruct (read_bytes v) as [b|] eqn:B; [|discriminate]. destruct (read_all_bytes l) as [bs|] eqn:R; [|discriminate]. intros [= <-].
      constructor; [|apply IH; reflexivity]. apply (read_bytes_iff _ _ S) in B as [[-> ->]|B]; [left; split; reflexivity|].
      pose proof B as (b' & -> & _). right. exists b'. split; [exact B|reflexivity].
    + intros H. inversion H as [|? x ? a' Hx Ha]; subst. apply IH in Ha. rewrite Ha.
      destruct Hx as [[-> ->]|(b & B & ->)]; [reflexivity|].
      assert (read_bytes v = Some (Some b)) as -> by (apply (read_bytes_iff _ _ S); right; exact B). reflexivity.
Qed.
Lemma read_attrs_iff v a : sound v -> (read_attrs v = Some a <-> (v = JNull /\ a = []) \/ slots_of v a).
Proof.
  intros S. unfold slots_of. inversion S as [|b|r N|r C|l F|l F]; subst; cbn [read_attrs].
  - split; [intros [= <-]; left; auto|]. intros [[_ ->]|(l & K & _)]; [reflexivity|discriminate K].
  - split; [discriminate|]. intros [[K _]|(l & K & _)]; discriminate K.
  - split; [discriminate|]. intros [[K _]|(l & K & _)]; discriminate K.
  - split; [discriminate|]. intros [[K _]|(l & K & _)]; discriminate K.
  - rewrite (read_all_iff l F). split; [intros H; right; exists l; auto|]. intros [[K _]|(l' & [= <-] & H)]; [discriminate K|exact H].
  - split; [discriminate|]. intros [[K _]|(l' & K & _)]; discriminate K.
Qed.

(** ** The structs *)
Definition metadata_slots : list (slot metadata) :=
  [mkslot bytes (str "UUID") md_uuid read_string; mkslot Z (str "Sequence") md_seq (read_int min_int64 max_int64); mkslot Z (str "StartTime") md_start read_time].
Definition archival_slots : list (slot archival) :=
  [mkslot Z (str "Timestamp") ar_time read_time; mkslot (option bytes) (str "RawIDM") ar_raw (fun v _ => read_bytes v);
   mkslot (list (option gslice)) (str "Attributes") ar_attrs (fun v _ => read_attrs v); mkslot (option metadata) (str "Metadata") ar_meta read_metadata].
Definition sockid_slots : list (slot sockid) :=
  [mkslot N (str "SPort") sid_sport (read_uint 65535); mkslot N (str "DPort") sid_dport (read_uint 65535);
   mkslot bytes (str "SrcIP") sid_src read_string; mkslot bytes (str "DstIP") sid_dst read_string;
   mkslot N (str "Interface") sid_if (read_uint 4294967295); mkslot Z (str "Cookie") sid_cookie (read_int min_int64 max_int64)].
Definition event_slots : list (slot flow_event) :=
  [mkslot Z (str "Event") fe_event (read_int min_int64 max_int64); mkslot Z (str "Timestamp") fe_time read_time;
   mkslot bytes (str "UUID") fe_uuid read_string; mkslot (option sockid) (str "ID") fe_id read_sockid].

Ltac each_slot I := cbn [In metadata_slots archival_slots sockid_slots event_slots] in I;
  repeat match type of I with _ \/ _ => destruct I as [<-|I] | False => destruct I end.
Ltac slot_red := cbn [slot_get slot_name slot_read slot_type] in *.
Lemma same_key_other f g k : map lower g = fold_key k -> bytes_eqb (map lower f) (map lower g) = false -> same_key f k = false.
Proof. intros E N. unfold same_key. rewrite <- E. exact N. Qed.
Lemma same_key_same f k : map lower f = fold_key k -> same_key f k = true.
Proof. apply key_iff. Qed.
Lemma key_no f k : map lower f <> fold_key k -> same_key f k = false.
Proof. intros N. destruct (same_key f k) eqn:E; [|reflexivity]. apply key_iff in E. contradiction. Qed.
Ltac keys E := repeat first [rewrite (same_key_same _ _ E) | match goal with |- context [same_key ?f _] => rewrite (same_key_other f _ _ E eq_refl) end].
Ltac names_tac := let I := fresh in let I' := fresh in let E := fresh in intros ? ? I I' E; each_slot I; each_slot I'; slot_red;
  first [reflexivity|exfalso; vm_compute in E; discriminate E].
Ltac dec_tac := let I := fresh in let I' := fresh in intros ? ? I I'; each_slot I; each_slot I';
  first [left; reflexivity|right; slot_red; intros K; vm_compute in K; discriminate K].
Ltac others O := intros s' I' N; each_slot I'; slot_red; first [reflexivity|exfalso; apply N; reflexivity].

Lemma metadata_takes l : separate metadata_slots l -> forall a a', read_fields metadata_field l a = Some a' <-> forall s, In s metadata_slots -> takes l s a a'.
Proof.
  apply fields_takes.
  - intros [u n t] [u' n' t'] H.
    pose proof (H _ (or_introl eq_refl)) as H1. pose proof (H _ (or_intror (or_introl eq_refl))) as H2. pose proof (H _ (or_intror (or_intror (or_introl eq_refl)))) as H3.
    cbn in H1, H2, H3. subst. reflexivity.
  - intros s a a' I. each_slot I; slot_red.
    + exists (mkmeta (md_uuid a') (md_seq a) (md_start a)). split; [reflexivity|]. others O.
    + exists (mkmeta (md_uuid a) (md_seq a') (md_start a)). split; [reflexivity|]. others O.
    + exists (mkmeta (md_uuid a) (md_seq a) (md_start a')). split; [reflexivity|]. others O.
  - intros s k v a a' I E. unfold metadata_field. each_slot I; slot_red; keys E.
    all: match goal with |- (match ?r with _ => _ end = _) <-> _ => destruct r as [x|] eqn:R end; [|split; [discriminate|intros [K _]; discriminate K]].
    all: split; [intros [= <-]; split; [reflexivity|others O]|].
    all: intros [[= ->] O]; f_equal; destruct a', a; cbn in *.
    all: pose proof (O _ (or_introl eq_refl)) as H1; pose proof (O _ (or_intror (or_introl eq_refl))) as H2; pose proof (O _ (or_intror (or_intror (or_introl eq_refl)))) as H3; cbn in H1, H2, H3.
    all: repeat match goal with H : ?x <> ?x -> _ |- _ => clear H | H : ?x <> ?y -> _ |- _ => specialize (H ltac:(intros K; discriminate K)) end; subst; reflexivity.
  - intros k v a N. unfold metadata_field.
    rewrite (key_no (str "UUID") k), (key_no (str "Sequence") k), (key_no (str "StartTime") k); [reflexivity| | |].
    + apply (N _ (or_intror (or_intror (or_introl eq_refl)))).
    + apply (N _ (or_intror (or_introl eq_refl))).
    + apply (N _ (or_introl eq_refl)).
  - names_tac.
  - dec_tac.
Qed.
Notation at0 H := (H _ (or_introl eq_refl)) (only parsing).
Notation at1 H := (H _ (or_intror (or_introl eq_refl))) (only parsing).
Notation at2 H := (H _ (or_intror (or_intror (or_introl eq_refl)))) (only parsing).
Notation at3 H := (H _ (or_intror (or_intror (or_intror (or_introl eq_refl))))) (only parsing).
Notation at4 H := (H _ (or_intror (or_intror (or_intror (or_intror (or_introl eq_refl)))))) (only parsing).
Notation at5 H := (H _ (or_intror (or_intror (or_intror (or_intror (or_intror (or_introl eq_refl))))))) (only parsing).
Ltac four O H1 H2 H3 H4 := pose proof (at0 O) as H1; pose proof (at1 O) as H2; pose proof (at2 O) as H3; pose proof (at3 O) as H4.
Ltac settle := repeat match goal with H : ?x <> ?x -> _ |- _ => clear H | H : ?x <> ?y -> _ |- _ => specialize (H ltac:(intros K; discriminate K)) end; subst; reflexivity.

Lemma archival_takes l : separate archival_slots l -> forall a a', read_fields archival_field l a = Some a' <-> forall s, In s archival_slots -> takes l s a a'.
Proof.
  apply fields_takes.
  - intros [] [] H. four H H1 H2 H3 H4. cbn in H1, H2, H3, H4. subst. reflexivity.
  - intros s a a' I. each_slot I; slot_red.
    + exists (mkar (ar_time a') (ar_raw a) (ar_attrs a) (ar_meta a)). split; [reflexivity|]. others O.
    + exists (mkar (ar_time a) (ar_raw a') (ar_attrs a) (ar_meta a)). split; [reflexivity|]. others O.
    + exists (mkar (ar_time a) (ar_raw a) (ar_attrs a') (ar_meta a)). split; [reflexivity|]. others O.
    + exists (mkar (ar_time a) (ar_raw a) (ar_attrs a) (ar_meta a')). split; [reflexivity|]. others O.
  - intros s k v a a' I E. unfold archival_field. each_slot I; slot_red; keys E.
    all: match goal with |- (match ?r with _ => _ end = _) <-> _ => destruct r as [x|] eqn:R end; [|split; [discriminate|intros [K _]; discriminate K]].
    all: split; [intros [= <-]; split; [reflexivity|others O]|].
    all: intros [[= ->] O]; f_equal; clear R; destruct a', a; cbn in *.
    all: four O H1 H2 H3 H4; cbn in H1, H2, H3, H4; settle.
  - intros k v a N. unfold archival_field.
    rewrite (key_no (str "Timestamp") k), (key_no (str "RawIDM") k), (key_no (str "Attributes") k), (key_no (str "Metadata") k); [reflexivity| | | |].
    + apply (at3 N).
    + apply (at2 N).
    + apply (at1 N).
    + apply (at0 N).
  - names_tac.
  - dec_tac.
Qed.
Lemma sockid_takes l : separate sockid_slots l -> forall a a', read_fields sockid_field l a = Some a' <-> forall s, In s sockid_slots -> takes l s a a'.
Proof.
  apply fields_takes.
  - intros [] [] H. four H H1 H2 H3 H4. pose proof (at4 H) as H5. pose proof (at5 H) as H6. cbn in H1, H2, H3, H4, H5, H6. subst. reflexivity.
  - intros s a a' I. each_slot I; slot_red.
    + exists (mksockid (sid_sport a') (sid_dport a) (sid_src a) (sid_dst a) (sid_if a) (sid_cookie a)). split; [reflexivity|]. others O.
    + exists (mksockid (sid_sport a) (sid_dport a') (sid_src a) (sid_dst a) (sid_if a) (sid_cookie a)). split; [reflexivity|]. others O.
    + exists (mksockid (sid_sport a) (sid_dport a) (sid_src a') (sid_dst a) (sid_if a) (sid_cookie a)). split; [reflexivity|]. others O.
    + exists (mksockid (sid_sport a) (sid_dport a) (sid_src a) (sid_dst a') (sid_if a) (sid_cookie a)). split; [reflexivity|]. others O.
    + exists (mksockid (sid_sport a) (sid_dport a) (sid_src a) (sid_dst a) (sid_if a') (sid_cookie a)). split; [reflexivity|]. others O.
    + exists (mksockid (sid_sport a) (sid_dport a) (sid_src a) (sid_dst a) (sid_if a) (sid_cookie a')). split; [reflexivity|]. others O.
  - intros s k v a a' I E. unfold sockid_field. each_slot I; slot_red; keys E; unfold option_map.
    all: match goal with |- (match ?r with _ => _ end = _) <-> _ => destruct r as [x|] eqn:R end; [|split; [discriminate|intros [K _]; discriminate K]].
    all: split; [intros [= <-]; split; [reflexivity|others O]|].
    all: intros [[= ->] O]; f_equal; clear R; destruct a', a; cbn in *.
    all: four O H1 H2 H3 H4; pose proof (at4 O) as H5; pose proof (at5 O) as H6; cbn in H1, H2, H3, H4, H5, H6; settle.
  - intros k v a N. unfold sockid_field.
    rewrite (key_no (str "SPort") k), (key_no (str "DPort") k), (key_no (str "SrcIP") k), (key_no (str "DstIP") k), (key_no (str "Interface") k), (key_no (str "Cookie") k);
      [reflexivity| | | | | |].
    + apply (at5 N).
    + apply (at4 N).
    + apply (at3 N).
    + apply (at2 N).
    + apply (at1 N).
    + apply (at0 N).
  - names_tac.
  - dec_tac.
Qed.
Lemma event_takes l : separate event_slots l -> forall a a', read_fields event_field l a = Some a' <-> forall s, In s event_slots -> takes l s a a'.
Proof.
  apply fields_takes.
  - intros [] [] H. four H H1 H2 H3 H4. cbn in H1, H2, H3, H4. subst. reflexivity.
  - intros s a a' I. each_slot I; slot_red.
    + exists (mkfe (fe_event a') (fe_time a) (fe_uuid a) (fe_id a)). split; [reflexivity|]. others O.
    + exists (mkfe (fe_event a) (fe_time a') (fe_uuid a) (fe_id a)). split; [reflexivity|]. others O.
    + exists (mkfe (fe_event a) (fe_time a) (fe_uuid a') (fe_id a)). split; [reflexivity|]. others O.
    + exists (mkfe (fe_event a) (fe_time a) (fe_uuid a) (fe_id a')). split; [reflexivity|]. others O.
  - intros s k v a a' I E. unfold event_field. each_slot I; slot_red; keys E; unfold option_map.
    all: match goal with |- (match ?r with _ => _ end = _) <-> _ => destruct r as [x|] eqn:R end; [|split; [discriminate|intros [K _]; discriminate K]].
    all: split; [intros [= <-]; split; [reflexivity|others O]|].
    all: intros [[= ->] O]; f_equal; clear R; destruct a', a; cbn in *.
    all: four O H1 H2 H3 H4; cbn in H1, H2, H3, H4; settle.
  - intros k v a N. unfold event_field.
    rewrite (key_no (str "Event") k), (key_no (str "Timestamp") k), (key_no (str "UUID") k), (key_no (str "ID") k); [reflexivity| | | |].
    + apply (at3 N).
    + apply (at2 N).
    + apply (at1 N).
    + apply (at0 N).
  - names_tac.
  - dec_tac.
Qed.

Lemma sound_at l k v : Forall (fun m : bytes * json => chars (fst m) /\ sound (snd m)) l -> In (k, v) l -> sound v.
Proof. intros W I. apply (proj1 (Forall_forall _ _) W _ I). Qed.

Lemma takes_iff {A T} (name : bytes) (get : A -> T) rd R l a a' : ascii name ->
  Forall (fun m : bytes * json => chars (fst m) /\ sound (snd m)) l ->
  (forall k v x, In (k, v) l -> called name k -> (rd v (get a) = Some x <-> (v = JNull /\ x = get a) \/ R v x)) ->
  (takes l (mkslot T name get rd) a a' <-> says l name R (get a) (get a')).
Proof. intros Af F H. exact (takes_says l (mkslot T name get rd) R a a' Af F H). Qed.
Ltac is_ascii := repeat (constructor; [reflexivity|]); constructor.
Ltac said F rest := apply takes_iff; [is_ascii|exact F|]; let k := fresh in let v := fresh in let x := fresh in let I := fresh "I" in
  intros k v x I _; first
    [apply read_string_iff, (sound_at _ _ _ F I)|apply read_int_iff, (sound_at _ _ _ F I)|apply read_time_iff|apply (read_uint_iff 65535), (sound_at _ _ _ F I)|
     apply (read_uint_iff 4294967295), (sound_at _ _ _ F I)|apply read_bytes_iff, (sound_at _ _ _ F I)|apply read_attrs_iff, (sound_at _ _ _ F I)|rest k v x I].
Ltac none := fun k v x I => fail.

Lemma metadata_ascii s : In s metadata_slots -> ascii (slot_name s).
Proof. intros I. each_slot I; is_ascii. Qed.
Lemma metadata_said l md : Forall (fun m : bytes * json => chars (fst m) /\ sound (snd m)) l -> once [str "UUID"; str "Sequence"; str "StartTime"] l ->
  (read_fields metadata_field l (mkmeta [] 0 zero_time) = Some md <->
   says l (str "UUID") string_of [] (md_uuid md) /\ says l (str "Sequence") int_of 0%Z (md_seq md) /\ says l (str "StartTime") time_of zero_time (md_start md)).
Proof.
  intros F D. rewrite (metadata_takes l (once_separate metadata_slots l metadata_ascii F D)). set (z := mkmeta [] 0 zero_time).
  assert (T1 : takes l (mkslot bytes (str "UUID") md_uuid read_string) z md <-> says l (str "UUID") string_of (md_uuid z) (md_uuid md)) by said F none.
  assert (T2 : takes l (mkslot Z (str "Sequence") md_seq (read_int min_int64 max_int64)) z md <-> says l (str "Sequence") int_of (md_seq z) (md_seq md)) by said F none.
  assert (T3 : takes l (mkslot Z (str "StartTime") md_start read_time) z md <-> says l (str "StartTime") time_of (md_start z) (md_start md)) by said F none.
  split.
  - intros H. split; [apply T1, (at0 H)|]. split; [apply T2, (at1 H)|apply T3, (at2 H)].
  - intros (H1 & H2 & H3) s I. each_slot I; [apply T1, H1|apply T2, H2|apply T3, H3].
Qed.
Lemma read_metadata_iff v o : sound v -> (forall l, v = JObj l -> once [str "UUID"; str "Sequence"; str "StartTime"] l) ->
  (read_metadata v None = Some o <-> (v = JNull /\ o = None) \/ metadata_of v o).
Proof.
  intros S D. unfold metadata_of. inversion S as [|b|r N|r C|l F|l F]; subst; cbn [read_metadata].
  1: { split; [intros [= <-]; left; auto|]. intros [[_ ->]|(l & md & K & _)]; [reflexivity|discriminate K]. }
  1-4: split; [discriminate|]; intros [[K _]|(l' & md & K & _)]; discriminate K.
  specialize (D l eq_refl). split.
  - destruct (read_fields metadata_field l _) as [md|] eqn:R; [|discriminate]. intros [= <-]. right. exists l, md. split; [reflexivity|]. split; [reflexivity|].
    apply (metadata_said l md F D), R.
  - intros [[K _]|(l' & md & [= <-] & -> & H)]; [discriminate K|]. apply (metadata_said l md F D) in H. rewrite H. reflexivity.
Qed.
Lemma sockid_ascii s : In s sockid_slots -> ascii (slot_name s).
Proof. intros I. each_slot I; is_ascii. Qed.
Lemma sockid_said l id : Forall (fun m : bytes * json => chars (fst m) /\ sound (snd m)) l -> once [str "SPort"; str "DPort"; str "SrcIP"; str "DstIP"; str "Interface"; str "Cookie"] l ->
  (read_fields sockid_field l zero_sockid = Some id <->
   says l (str "SPort") (uint_of 65535) 0%N (sid_sport id) /\ says l (str "DPort") (uint_of 65535) 0%N (sid_dport id) /\
   says l (str "SrcIP") string_of [] (sid_src id) /\ says l (str "DstIP") string_of [] (sid_dst id) /\
   says l (str "Interface") (uint_of 4294967295) 0%N (sid_if id) /\ says l (str "Cookie") int_of 0%Z (sid_cookie id)).
Proof.
  intros F D. rewrite (sockid_takes l (once_separate sockid_slots l sockid_ascii F D)).
  assert (T1 : takes l (mkslot N (str "SPort") sid_sport (read_uint 65535)) zero_sockid id <-> says l (str "SPort") (uint_of 65535) (sid_sport zero_sockid) (sid_sport id)) by said F none.
  assert (T2 : takes l (mkslot N (str "DPort") sid_dport (read_uint 65535)) zero_sockid id <-> says l (str "DPort") (uint_of 65535) (sid_dport zero_sockid) (sid_dport id)) by said F none.
  assert (T3 : takes l (mkslot bytes (str "SrcIP") sid_src read_string) zero_sockid id <-> says l (str "SrcIP") string_of (sid_src zero_sockid) (sid_src id)) by said F none.
  assert (T4 : takes l (mkslot bytes (str "DstIP") sid_dst read_string) zero_sockid id <-> says l (str "DstIP") string_of (sid_dst zero_sockid) (sid_dst id)) by said F none.
  assert (T5 : takes l (mkslot N (str "Interface") sid_if (read_uint 4294967295)) zero_sockid id <-> says l (str "Interface") (uint_of 4294967295) (sid_if zero_sockid) (sid_if id)) by said F none.
  assert (T6 : takes l (mkslot Z (str "Cookie") sid_cookie (read_int min_int64 max_int64)) zero_sockid id <-> says l (str "Cookie") int_of (sid_cookie zero_sockid) (sid_cookie id)) by said F none.
  split.
  - intros H. split; [apply T1, (at0 H)|]. split; [apply T2, (at1 H)|]. split; [apply T3, (at2 H)|]. split; [apply T4, (at3 H)|]. split; [apply T5, (at4 H)|apply T6, (at5 H)].
  - intros (H1 & H2 & H3 & H4 & H5 & H6) s I. each_slot I; [apply T1, H1|apply T2, H2|apply T3, H3|apply T4, H4|apply T5, H5|apply T6, H6].
Qed.
Lemma read_sockid_iff v o : sound v -> (forall l, v = JObj l -> once [str "SPort"; str "DPort"; str "SrcIP"; str "DstIP"; str "Interface"; str "Cookie"] l) ->
  (read_sockid v None = Some o <-> (v = JNull /\ o = None) \/ sockid_of v o).
Proof.
  intros S D. unfold sockid_of. inversion S as [|b|r N|r C|l F|l F]; subst; cbn [read_sockid].
  1: { split; [intros [= <-]; left; auto|]. intros [[_ ->]|(l & md & K & _)]; [reflexivity|discriminate K]. }
  1-4: split; [discriminate|]; intros [[K _]|(l' & md & K & _)]; discriminate K.
  specialize (D l eq_refl). unfold option_map. split.
  - destruct (read_fields sockid_field l _) as [id|] eqn:R; [|discriminate]. intros [= <-]. right. exists l, id. split; [reflexivity|]. split; [reflexivity|].
    apply (sockid_said l id F D), R.
  - intros [[K _]|(l' & id & [= <-] & -> & H)]; [discriminate K|]. apply (sockid_said l id F D) in H. rewrite H. reflexivity.
Qed.
Lemma archival_ascii s : In s archival_slots -> ascii (slot_name s).
Proof. intros I. each_slot I; is_ascii. Qed.
Lemma archival_said l r : Forall (fun m : bytes * json => chars (fst m) /\ sound (snd m)) l -> once [str "Timestamp"; str "RawIDM"; str "Attributes"; str "Metadata"] l -> (forall k l', In (k, JObj l') l -> called (str "Metadata") k -> once [str "UUID"; str "Sequence"; str "StartTime"] l') ->
  (read_fields archival_field l zero_archival = Some r <->
   says l (str "Timestamp") time_of zero_time (ar_time r) /\ says l (str "RawIDM") bytes_of None (ar_raw r) /\
   says l (str "Attributes") slots_of [] (ar_attrs r) /\ says l (str "Metadata") metadata_of None (ar_meta r)).
Proof.
  intros F D Di. rewrite (archival_takes l (once_separate archival_slots l archival_ascii F D)).
  assert (T1 : takes l (mkslot Z (str "Timestamp") ar_time read_time) zero_archival r <-> says l (str "Timestamp") time_of (ar_time zero_archival) (ar_time r)) by said F none.
  assert (T2 : takes l (mkslot (option bytes) (str "RawIDM") ar_raw (fun v _ => read_bytes v)) zero_archival r <-> says l (str "RawIDM") bytes_of (ar_raw zero_archival) (ar_raw r)) by said F none.
  assert (T3 : takes l (mkslot (list (option gslice)) (str "Attributes") ar_attrs (fun v _ => read_attrs v)) zero_archival r <-> says l (str "Attributes") slots_of (ar_attrs zero_archival) (ar_attrs r)) by said F none.
  assert (T4 : takes l (mkslot (option metadata) (str "Metadata") ar_meta read_metadata) zero_archival r <-> says l (str "Metadata") metadata_of (ar_meta zero_archival) (ar_meta r)).
  { apply takes_iff; [is_ascii|exact F|]. intros k v x I K. apply read_metadata_iff; [apply (sound_at _ _ _ F I)|]. intros l' ->. exact (Di _ _ I K). }
  split.
  - intros H. split; [apply T1, (at0 H)|]. split; [apply T2, (at1 H)|]. split; [apply T3, (at2 H)|apply T4, (at3 H)].
  - intros (H1 & H2 & H3 & H4) s I. each_slot I; [apply T1, H1|apply T2, H2|apply T3, H3|apply T4, H4].
Qed.
Lemma event_ascii s : In s event_slots -> ascii (slot_name s).
Proof. intros I. each_slot I; is_ascii. Qed.
Lemma event_said l e : Forall (fun m : bytes * json => chars (fst m) /\ sound (snd m)) l -> once [str "Event"; str "Timestamp"; str "UUID"; str "ID"] l -> (forall k l', In (k, JObj l') l -> called (str "ID") k -> once [str "SPort"; str "DPort"; str "SrcIP"; str "DstIP"; str "Interface"; str "Cookie"] l') ->
  (read_fields event_field l zero_event = Some e <->
   says l (str "Event") int_of 0%Z (fe_event e) /\ says l (str "Timestamp") time_of zero_time (fe_time e) /\
   says l (str "UUID") string_of [] (fe_uuid e) /\ says l (str "ID") sockid_of None (fe_id e)).
Proof.
  intros F D Di. rewrite (event_takes l (once_separate event_slots l event_ascii F D)).
  assert (T1 : takes l (mkslot Z (str "Event") fe_event (read_int min_int64 max_int64)) zero_event e <-> says l (str "Event") int_of (fe_event zero_event) (fe_event e)) by said F none.
  assert (T2 : takes l (mkslot Z (str "Timestamp") fe_time read_time) zero_event e <-> says l (str "Timestamp") time_of (fe_time zero_event) (fe_time e)) by said F none.
  assert (T3 : takes l (mkslot bytes (str "UUID") fe_uuid read_string) zero_event e <-> says l (str "UUID") string_of (fe_uuid zero_event) (fe_uuid e)) by said F none.
  assert (T4 : takes l (mkslot (option sockid) (str "ID") fe_id read_sockid) zero_event e <-> says l (str "ID") sockid_of (fe_id zero_event) (fe_id e)).
  { apply takes_iff; [is_ascii|exact F|]. intros k v x I K. apply read_sockid_iff; [apply (sound_at _ _ _ F I)|]. intros l' ->. exact (Di _ _ I K). }
  split.
  - intros H. split; [apply T1, (at0 H)|]. split; [apply T2, (at1 H)|]. split; [apply T3, (at2 H)|apply T4, (at3 H)].
  - intros (H1 & H2 & H3 & H4) s I. each_slot I; [apply T1, H1|apply T2, H2|apply T3, H3|apply T4, H4].
Qed.

(** ** The lines *)
Lemma json_sound j b : json_text j b -> sound j.
Proof. intros [P _]. exact (proj1 (proj2 grammar_sound) j b P). Qed.
Lemma unmarshal_says j b r : json_text j b -> clear_record j -> (unmarshal b = Ret r <-> record_of j r).
Proof.
  intros S U. unfold unmarshal, record_of. rewrite (proj2 (parse_grammar b j) S). pose proof (json_sound _ _ S) as W.
  destruct j as [|x|x|x|l|l]; [|split; [discriminate|intros [[K _]|(l' & K & _)]; discriminate K]..|].
  - split; [intros [= <-]; left; auto|]. intros [[_ ->]|(l & K & _)]; [reflexivity|discriminate K].
  - destruct (U l eq_refl) as [D Di]. inversion W as [| | | | |? F]; subst. split.
    + destruct (read_fields archival_field l zero_archival) as [r'|] eqn:R; [|discriminate]. intros [= <-]. right. exists l. split; [reflexivity|].
      apply (archival_said l r' F D Di), R.
    + intros [[K _]|(l' & [= <-] & H)]; [discriminate K|]. apply (archival_said l r F D Di) in H. rewrite H. reflexivity.
Qed.
Lemma unmarshal_event_says j b e : json_text j b -> clear_event j -> (unmarshal_event b = Ret e <-> event_of_json j e).
Proof.
  intros S U. unfold unmarshal_event, event_of_json. rewrite (proj2 (parse_grammar b j) S). pose proof (json_sound _ _ S) as W.
  destruct j as [|x|x|x|l|l]; [|split; [discriminate|intros [[K _]|(l' & K & _)]; discriminate K]..|].
  - split; [intros [= <-]; left; auto|]. intros [[_ ->]|(l & K & _)]; [reflexivity|discriminate K].
  - destruct (U l eq_refl) as [D Di]. inversion W as [| | | | |? F]; subst. split.
    + destruct (read_fields event_field l zero_event) as [r'|] eqn:R; [|discriminate]. intros [= <-]. right. exists l. split; [reflexivity|].
      apply (event_said l r' F D Di), R.
    + intros [[K _]|(l' & [= <-] & H)]; [discriminate K|]. apply (event_said l e F D Di) in H. rewrite H. reflexivity.
Qed.
Lemma unmarshal_total b : (exists r, unmarshal b = Ret r) \/ unmarshal b = Fail ErrJSON.
Proof.
  unfold unmarshal. destruct (parse b) as [[| | | | |l]|]; eauto. destruct (read_fields _ _ _); eauto.
Qed.
Lemma unmarshal_event_total b : (exists e, unmarshal_event b = Ret e) \/ unmarshal_event b = Fail ErrJSON.
Proof.
  unfold unmarshal_event. destruct (parse b) as [[| | | | |l]|]; eauto. destruct (read_fields _ _ _); eauto.
Qed.
Lemma not_json_fails b : (forall j, ~ json_text j b) -> unmarshal b = Fail ErrJSON /\ unmarshal_event b = Fail ErrJSON.
Proof.
  intros N. unfold unmarshal, unmarshal_event. destruct (parse b) as [j|] eqn:P; [|split; reflexivity].
  apply parse_grammar in P. destruct (N j P).
Qed.
