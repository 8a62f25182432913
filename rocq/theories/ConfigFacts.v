(** Proofs about AddSrcPort and AddDstIP. *)
From Coq Require Import Strings.String List NArith ZArith Bool Arith Lia ZifyN ZifyNat ZifyBool.
From Verif Require Import GoBase GoBaseFacts Layout Tcp NetIP Inetdiag Netlink SpecNetlink NetlinkFacts AddrFacts RecordFacts SpecConfig.
Import ListNotations.
Local Open Scope list_scope.
Local Open Scope nat_scope.

(** ** ParseInt *)
Definition dval (n : N) (l : bytes) : N := fold_left (fun a d => 10 * a + (bval d - 48))%N l n.

Lemma dval_mono l : forall n, (n <= dval n l)%N.
Proof.
  induction l as [|b l IH]; intros n; cbn [dval fold_left]; [lia|].
  specialize (IH (10 * n + (bval b - 48))%N). unfold dval in IH. lia.
Qed.

Lemma is_dig_iff b : is_dig b = true <-> decimal_digit b.
Proof. unfold is_dig, decimal_digit. lia. Qed.

Lemma parse_uint16_ret l : forall n un, (n <= 65535)%N ->
  (parse_uint16 n l = Ret un <-> Forall decimal_digit l /\ un = dval n l /\ (un <= 65535)%N).
Proof.
  induction l as [|b l IH]; intros n un Hn; cbn [parse_uint16].
  - split.
    + intros K. injection K as <-. repeat split; [constructor|lia].
    + intros (_ & -> & _). reflexivity.
  - destruct (is_dig b) eqn:E.
    + apply is_dig_iff in E. replace (n * 10 + (bval b - 48))%N with (10 * n + (bval b - 48))%N by lia.
      destruct (65535 <? 10 * n + (bval b - 48))%N eqn:E2.
      * split; [discriminate|]. intros (_ & -> & K). pose proof (dval_mono l (10 * n + (bval b - 48))%N) as M.
        unfold dval in *. cbn [fold_left] in K. lia.
      * rewrite IH by lia. unfold dval. cbn [fold_left]. split; intros (H1 & H2 & H3); repeat split; auto.
        inversion H1; auto.
    + split; [discriminate|]. intros (K & _). inversion K as [|? ? K1 K2]; subst. apply is_dig_iff in K1. congruence.
Qed.

Lemma parse_uint16_not_ret l n : (exists un, parse_uint16 n l = Ret un) \/ (exists e, parse_uint16 n l = Fail e).
Proof.
  revert n. induction l as [|b l IH]; intros n; cbn [parse_uint16]; [eauto|].
  destruct (is_dig b); [|eauto]. destruct (65535 <? n * 10 + (bval b - 48))%N; eauto.
Qed.

Lemma parse_int16_ret s z : parse_int16 s = Ret z <-> signed_decimal s z /\ (-32768 <= z <= 32767)%Z.
Proof.
  assert (body : forall neg t, t <> [] ->
    (bind (parse_uint16 0 t) (fun un =>
             if negb neg && N.leb 32768 un then Fail ErrRange
             else if neg && N.ltb 32768 un then Fail ErrRange
             else Ret (if neg then (- Z.of_N un)%Z else Z.of_N un)) = Ret z <->
     Forall decimal_digit t /\ z = (if neg then - Z.of_N (decimal_value t) else Z.of_N (decimal_value t))%Z
       /\ (-32768 <= z <= 32767)%Z)).
  { intros neg t Ht. pose proof (parse_uint16_ret t 0) as P.
    destruct (parse_uint16 0 t) as [un|e| |] eqn:E; cbn [bind].
    - destruct (proj1 (P un ltac:(lia)) eq_refl) as (H1 & H2 & H3). change (dval 0 t) with (decimal_value t) in H2.
      rewrite <- H2. destruct neg; cbn [negb andb].
      + destruct (32768 <? un)%N eqn:E2.
        * split; [discriminate|]. intros (_ & -> & K). lia.
        * split; [intros K; injection K as <-; repeat split; auto; lia|]. intros (_ & -> & _). reflexivity.
      + destruct (32768 <=? un)%N eqn:E2.
        * split; [discriminate|]. intros (_ & -> & K). lia.
        * split; [intros K; injection K as <-; repeat split; auto; lia|]. intros (_ & -> & _). reflexivity.
    - split; [discriminate|]. intros (K1 & K2 & K3).
      assert (Fail e = Ret (decimal_value t)) as Q; [|discriminate Q].
      apply P; [lia|]. repeat split; auto. destruct neg; lia.
    - destruct (parse_uint16_not_ret t 0) as [[? K]|[? K]]; congruence.
    - destruct (parse_uint16_not_ret t 0) as [[? K]|[? K]]; congruence. }
  unfold parse_int16, signed_decimal. destruct s as [|b r].
  { split; [discriminate|]. intros ((sgn & ds & E & Hne & _) & _). destruct sgn; [|discriminate]. cbn in E. congruence. }
  destruct (bval b =? 43)%N eqn:E43; [|destruct (bval b =? 45)%N eqn:E45].
  - assert (b = x2b) as -> by (apply bval_inj; change (bval x2b) with 43%N; lia).
    split.
    + intros K. destruct r as [|c r]; [discriminate|].
      apply (body false (c :: r) ltac:(discriminate)) in K. destruct K as (K1 & K2 & K3). split; [|exact K3].
      exists [x2b], (c :: r). repeat split; auto; try discriminate.
    + intros ((sgn & ds & E & Hne & Hf & Hz) & Hr). 
      destruct Hz as [[[->| ->] ->]|[-> ->]].
      * cbn in E. subst ds. inversion Hf as [|? ? K _]; subst. unfold decimal_digit in K. cbn in K. lia.
      * injection E as <-. destruct r as [|c r]; [congruence|]. apply (body false (c :: r) ltac:(discriminate)). auto.
      * discriminate.
  - assert (b = x2d) as -> by (apply bval_inj; change (bval x2d) with 45%N; lia).
    split.
    + intros K. destruct r as [|c r]; [discriminate|].
      apply (body true (c :: r) ltac:(discriminate)) in K. destruct K as (K1 & K2 & K3). split; [|exact K3].
      exists [x2d], (c :: r). repeat split; auto; try discriminate.
    + intros ((sgn & ds & E & Hne & Hf & Hz) & Hr). 
      destruct Hz as [[[->| ->] ->]|[-> ->]].
      * cbn in E. subst ds. inversion Hf as [|? ? K _]; subst. unfold decimal_digit in K. cbn in K. lia.
      * discriminate.
      * injection E as <-. destruct r as [|c r]; [congruence|]. apply (body true (c :: r) ltac:(discriminate)). auto.
  - split.
    + intros K. apply (body false (b :: r) ltac:(discriminate)) in K. destruct K as (K1 & K2 & K3). split; [|exact K3].
      exists [], (b :: r). repeat split; auto; try discriminate.
    + intros ((sgn & ds & E & Hne & Hf & Hz) & Hr). 
      destruct Hz as [[[->| ->] ->]|[-> ->]].
      * cbn in E. subst ds. apply (body false (b :: r) ltac:(discriminate)). auto.
      * injection E as -> ->. discriminate.
      * injection E as -> ->. discriminate.
Qed.

Lemma signed_decimal_fun s z z' : signed_decimal s z -> signed_decimal s z' -> z = z'.
Proof.
  intros (g & d & -> & Hn & Hf & Hz) (g' & d' & E & Hn' & Hf' & Hz').
  assert (forall (a : byte) u w, (a = x2b \/ a = x2d) -> Forall decimal_digit u -> u <> a :: w) as K.
  { intros a u w Ha Hu ->. inversion Hu as [|? ? K _]; subst. unfold decimal_digit in K. destruct Ha as [->| ->]; cbn in K; lia. }
  destruct Hz as [[[->| ->] ->]|[-> ->]]; destruct Hz' as [[[->| ->] ->]|[-> ->]]; cbn in E; try congruence;
    exfalso; try (eapply (K x2b); [|exact Hf|exact E]; auto); try (eapply (K x2d); [|exact Hf|exact E]; auto);
    try (eapply (K x2b); [|exact Hf'|symmetry; exact E]; auto); try (eapply (K x2d); [|exact Hf'|symmetry; exact E]; auto).
Qed.

Definition port_added (ex ex' : exclude_config) (p : N) : Prop :=
  ex_local ex' = ex_local ex /\ ex_dstips ex' = ex_dstips ex /\
  forall q, ports_of ex' q <-> q = p \/ ports_of ex q.

Lemma add_src_port_iff ex s :
  (exists ex', add_src_port ex s = Ret ex') <-> exists z, signed_decimal s z /\ (-32768 <= z <= 32767)%Z.
Proof.
  unfold add_src_port. split.
  - intros [ex' H]. destruct (parse_int16 s) as [z|e| |] eqn:E; try discriminate. exists z. apply parse_int16_ret, E.
  - intros [z H]. apply parse_int16_ret in H. rewrite H. cbn. eauto.
Qed.

Lemma add_src_port_effect ex s ex' z :
  add_src_port ex s = Ret ex' -> signed_decimal s z -> port_added ex ex' (Z.to_N (z mod 65536)).
Proof.
  unfold add_src_port. intros H Hs. destruct (parse_int16 s) as [z'|e| |] eqn:E; try discriminate.
  cbn [bind] in H. injection H as <-. apply parse_int16_ret in E. destruct E as [E _].
  assert (z' = z) as -> by (eapply signed_decimal_fun; eauto).
  repeat split; unfold ports_of; cbn [ex_srcports].
  - intros (m & Em & Hm). injection Em as <-. unfold u16_of_Z in Hm.
    destruct (q =? Z.to_N (z mod 65536))%N eqn:Eq; [left; lia|right]. apply map_of_iff in Hm. exact Hm.
  - intros Hq. eexists. split; [reflexivity|]. cbn. unfold u16_of_Z.
    destruct (q =? Z.to_N (z mod 65536))%N eqn:Eq; [reflexivity|]. destruct Hq as [->|Hq]; [lia|].
    apply map_of_iff. exact Hq.
Qed.

Lemma dec_signed p : signed_decimal (dec p) (Z.of_N p).
Proof.
  exists [], (dec p). split; [reflexivity|]. split; [apply dec_nonempty|]. split.
  - eapply Forall_impl; [|apply dec_digits]. intros b Hb. apply is_dig_iff. exact Hb.
  - left. split; [auto|]. f_equal. symmetry. apply vald_dec.
Qed.

Lemma excludes_port_added ex ex' p raw : port_added ex ex' p ->
  (excludes ex' raw <-> hdr_sport raw = p \/ excludes ex raw).
Proof.
  intros (H1 & H2 & H3). unfold excludes, should_exclude. rewrite H3, H1. unfold dsts_of. rewrite H2. tauto.
Qed.

Lemma hdr_sport_raw msg : 72 <= length (data_of msg) -> hdr_sport (raw_of msg) = hdr_sport (data_of msg).
Proof. intros. unfold hdr_sport, raw_of. rewrite at_firstn by lia. reflexivity. Qed.
Lemma hdr_dst_raw msg : 72 <= length (data_of msg) -> hdr_dst (raw_of msg) = hdr_dst (data_of msg).
Proof. intros. unfold hdr_dst, raw_of. rewrite at_firstn by lia. reflexivity. Qed.

Lemma port_excluded ex p : (p <= 32767)%N ->
  exists ex', add_src_port ex (dec p) = Ret ex' /\
  forall msg, h_type (m_header msg) = 20%N -> 72 <= length (data_of msg) ->
    (make_archival_record msg (Some ex') = Ret None <->
     hdr_sport (data_of msg) = p \/ make_archival_record msg (Some ex) = Ret None).
Proof.
  intros Hp. destruct (proj2 (add_src_port_iff ex (dec p))) as [ex' E].
  { exists (Z.of_N p). split; [apply dec_signed|lia]. }
  exists ex'. split; [exact E|]. pose proof (add_src_port_effect ex _ ex' _ E (dec_signed p)) as K.
  rewrite Z.mod_small in K by lia. rewrite N2Z.id in K. intros msg Ht Hl. rewrite !make_ret_none_iff.
  rewrite <- (hdr_sport_raw msg Hl). split.
  - intros (_ & _ & e & Q & H). injection Q as <-. apply (excludes_port_added _ _ _ _ K) in H.
    destruct H as [H|H]; [left; exact H|right]. eauto.
  - intros H. repeat split; auto. exists ex'. split; [reflexivity|]. apply (excludes_port_added _ _ _ _ K).
    destruct H as [H|(_ & _ & e & Q & H)]; [left; exact H|right]. injection Q as <-. exact H.
Qed.

Lemma port_rejected ex p : (32768 <= p)%N -> exists e, add_src_port ex (dec p) = Fail e.
Proof.
  intros Hp. destruct (add_src_port ex (dec p)) as [ex'|e| |] eqn:E; eauto; exfalso.
  - destruct (proj1 (add_src_port_iff ex (dec p)) (ex_intro _ _ E)) as (z & Hz & Hr).
    assert (z = Z.of_N p) by (eapply signed_decimal_fun; [exact Hz|apply dec_signed]). lia.
  - unfold add_src_port in E. destruct (parse_int16 (dec p)) eqn:E2; try discriminate.
    unfold parse_int16 in E2. pose proof (parse_uint16_not_ret (dec p) 0) as K. destruct (dec p) as [|b r]; [discriminate|].
    destruct (bval b =? 43)%N, (bval b =? 45)%N; try destruct r as [|c r]; try discriminate; cbn [bind] in E2;
    match type of E2 with context [parse_uint16 0 ?l] => destruct (parse_uint16_not_ret l 0) as [[? Q]|[? Q]]; rewrite Q in E2 end; cbn [bind] in E2;
    repeat match type of E2 with context [if ?c then _ else _] => destruct c end; discriminate.
  - unfold add_src_port in E. destruct (parse_int16 (dec p)) eqn:E2; try discriminate.
    unfold parse_int16 in E2. destruct (dec p) as [|b r]; [discriminate|].
    destruct (bval b =? 43)%N, (bval b =? 45)%N; try destruct r as [|c r]; try discriminate; cbn [bind] in E2;
    match type of E2 with context [parse_uint16 0 ?l] => destruct (parse_uint16_not_ret l 0) as [[? Q]|[? Q]]; rewrite Q in E2 end; cbn [bind] in E2;
    repeat match type of E2 with context [if ?c then _ else _] => destruct c end; discriminate.
Qed.
