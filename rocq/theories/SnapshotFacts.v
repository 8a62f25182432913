(** Facts about decoding. *)
From Coq Require Import Strings.String List NArith ZArith Bool Arith Lia.
From Coq Require Import ZifyBool ZifyNat ZifyN.
From Verif Require Import GoBase GoBaseFacts Layout Tcp Inetdiag Netlink Snapshot SpecSnapshot.
Import ListNotations.
Local Open Scope list_scope.

(** Memory and tables. *)

Lemma le_bytes_at raw o w : le (bytes_at raw o w) = number_at raw o w.
Proof.
  revert o. induction w as [|w IH]; intros o; [reflexivity|].
  unfold bytes_at in *. cbn [seq map le number_at]. rewrite IH. reflexivity.
Qed.

Lemma sub_bytes_at o n l : o + n <= length l -> sub o n l = bytes_at l o n.
Proof.
  intros H. unfold sub, bytes_at. apply nth_ext with (d := x00) (d' := x00).
  - rewrite firstn_length, skipn_length, map_length, seq_length. lia.
  - intros i Hi. rewrite firstn_length, skipn_length in Hi.
    rewrite (nth_indep (map _ _) x00 ((fun i => nth i l x00) 0)) by (rewrite map_length, seq_length; lia).
    rewrite (map_nth (fun i => nth i l x00) (seq o n) 0 i), seq_nth by lia.
    assert (E : nth i (firstn n (skipn o l)) x00 = nth i (skipn o l) x00).
    { rewrite <- (firstn_skipn n (skipn o l)) at 2. rewrite app_nth1; [reflexivity|].
      rewrite firstn_length, skipn_length. lia. }
    transitivity (nth i (skipn o l) x00); [exact E|].
    rewrite <- (firstn_skipn o l) at 2. rewrite app_nth2; rewrite firstn_length; [|lia].
    f_equal. lia.
Qed.

Lemma bytes_at_ext a b o n : (forall i, i < o + n -> nth i a x00 = nth i b x00) -> bytes_at a o n = bytes_at b o n.
Proof.
  intros H. unfold bytes_at. apply map_ext_in. intros i Hi. apply in_seq in Hi. apply H. lia.
Qed.

Lemma maybe_copy_length raw n : length (fst (maybe_copy raw n)) = n.
Proof.
  unfold maybe_copy. destruct (Nat.ltb_spec (length raw) n); cbn [fst].
  - rewrite app_length, repeat_length. lia.
  - rewrite firstn_length. lia.
Qed.

Lemma nth_repeat_x00 i n : nth i (repeat x00 n) x00 = x00.
Proof. revert i. induction n as [|n IH]; intros [|i]; cbn; auto. Qed.

Lemma maybe_copy_nth raw n i : i < n -> nth i (fst (maybe_copy raw n)) x00 = nth i raw x00.
Proof.
  intros H. unfold maybe_copy. destruct (Nat.ltb_spec (length raw) n); cbn [fst].
  - destruct (Nat.lt_ge_cases i (length raw)).
    + rewrite app_nth1 by lia. reflexivity.
    + rewrite app_nth2 by lia. rewrite nth_repeat_x00, (nth_overflow raw) by lia. reflexivity.
  - rewrite <- (firstn_skipn n raw) at 2. rewrite app_nth1; [reflexivity|]. rewrite firstn_length. lia.
Qed.

Lemma maybe_copy_ok raw n : snd (maybe_copy raw n) = true <-> ~ n < length raw.
Proof.
  unfold maybe_copy. destruct (Nat.ltb_spec (length raw) n); cbn [snd].
  - split; [lia|reflexivity].
  - rewrite Nat.eqb_eq. lia.
Qed.

Definition kind_of (w : nat) (sgn : bool) : fkind :=
  match w, sgn with
  | 1, _ => U8 | 2, _ => U16 | 4, false => U32 | 4, true => I32 | _, false => U64 | _, true => I64
  end.
Definition as_layout (f : field_spec) : string * nat * fkind :=
  match f with (name, o, w, sgn) => (name, o, kind_of w sgn) end.
Definition width_ok (size : nat) (f : field_spec) : bool :=
  match f with
  | (_, o, w, sgn) => (o + w <=? size) && (if sgn then (w =? 4) || (w =? 8)
                                          else (w =? 1) || (w =? 2) || (w =? 4) || (w =? 8))
  end.

Lemma pow_256_4 : Z.of_N (256 ^ N.of_nat 4) = (2 ^ 32)%Z. Proof. reflexivity. Qed.
Lemma pow_256_8 : Z.of_N (256 ^ N.of_nat 8) = (2 ^ 64)%Z. Proof. reflexivity. Qed.

Lemma load_field size mem raw f :
  length mem = size -> (forall i, i < size -> nth i mem x00 = nth i raw x00) -> width_ok size f = true ->
  (match as_layout f with (name, p, k) => (name, load k (sub p (fsize k) mem)) end) = read_field raw f.
Proof.
  intros HL HN HW. destruct f as [[[name o] w] sgn]. unfold as_layout, width_ok, read_field in *.
  apply andb_true_iff in HW. destruct HW as [HW1 HW2]. apply Nat.leb_le in HW1.
  assert (E : fsize (kind_of w sgn) = w -> le (sub o (fsize (kind_of w sgn)) mem) = number_at raw o w).
  { intros E. rewrite E, sub_bytes_at by lia. rewrite (bytes_at_ext mem raw), le_bytes_at; [reflexivity|].
    intros i Hi. apply HN. lia. }
  f_equal. destruct sgn.
  - apply orb_true_iff in HW2. destruct HW2 as [HW2|HW2]; apply Nat.eqb_eq in HW2; subst w;
      cbn [kind_of] in *; unfold load; rewrite E by reflexivity; unfold sign_extend, signed_at;
      rewrite ?pow_256_4, ?pow_256_8; f_equal.
    + change (2 ^ (32 - 1))%Z with (2 ^ 31)%Z. change (2 ^ 32)%Z with (2 * 2 ^ 31)%Z.
      destruct (Z.ltb_spec (Z.of_N (number_at raw o 4)) (2 ^ 31));
        destruct (Z.ltb_spec (2 * Z.of_N (number_at raw o 4)) (2 * 2 ^ 31)); lia.
    + change (2 ^ (64 - 1))%Z with (2 ^ 63)%Z. change (2 ^ 64)%Z with (2 * 2 ^ 63)%Z.
      destruct (Z.ltb_spec (Z.of_N (number_at raw o 8)) (2 ^ 63));
        destruct (Z.ltb_spec (2 * Z.of_N (number_at raw o 8)) (2 * 2 ^ 63)); lia.
  - rewrite !orb_true_iff in HW2. destruct HW2 as [[[HW2|HW2]|HW2]|HW2]; apply Nat.eqb_eq in HW2; subst w;
      cbn [kind_of] in *; unfold load; rewrite E by reflexivity; reflexivity.
Qed.

Lemma to_struct_table st tb raw :
  layout st = map as_layout tb -> forallb (width_ok (sizeof st)) tb = true ->
  fst (to_struct st raw) = read_table tb raw.
Proof.
  intros HL HW. unfold to_struct.
  destruct (maybe_copy raw (sizeof st)) as [mem ok] eqn:E. cbn [fst].
  assert (M : mem = fst (maybe_copy raw (sizeof st))) by (rewrite E; reflexivity).
  unfold load_struct, read_table. rewrite HL, map_map. apply map_ext_in. intros f Hf.
  rewrite forallb_forall in HW. apply (load_field (sizeof st)).
  - rewrite M. apply maybe_copy_length.
  - intros i Hi. rewrite M. apply maybe_copy_nth, Hi.
  - apply HW, Hf.
Qed.

Lemma to_struct_ok st raw : snd (to_struct st raw) = true <-> ~ sizeof st < length raw.
Proof.
  unfold to_struct. rewrite <- (maybe_copy_ok raw (sizeof st)).
  destruct (maybe_copy raw (sizeof st)); reflexivity.
Qed.

Lemma tcp_struct raw : fst (to_struct LinuxTCPInfo raw) = read_table tcp_table raw.
Proof. apply to_struct_table; vm_compute; reflexivity. Qed.
Lemma mem_struct raw : fst (to_struct MemInfo raw) = read_table mem_table raw.
Proof. apply to_struct_table; vm_compute; reflexivity. Qed.
Lemma skmem_struct raw : fst (to_struct SocketMemInfo raw) = read_table skmem_table raw.
Proof. apply to_struct_table; vm_compute; reflexivity. Qed.
Lemma vegas_struct raw : fst (to_struct VegasInfo raw) = read_table vegas_table raw.
Proof. apply to_struct_table; vm_compute; reflexivity. Qed.
Lemma dctcp_struct raw : fst (to_struct DCTCPInfo raw) = read_table dctcp_table raw.
Proof. apply to_struct_table; vm_compute; reflexivity. Qed.
Lemma bbr_struct raw : fst (to_struct BBRInfo raw) = read_table bbr_table raw.
Proof. apply to_struct_table; vm_compute; reflexivity. Qed.

Lemma load_idm_header raw : 72 <= length raw -> load_idm raw = header_at raw.
Proof.
  intros H. unfold load_idm, header_at.
  change (idm_off "IDiagFamily") with 0. change (idm_off "IDiagState") with 1.
  change (idm_off "IDiagTimer") with 2. change (idm_off "IDiagRetrans") with 3.
  change (id_off "IDiagSPort") with 4. change (id_off "IDiagDPort") with 6.
  change (id_off "IDiagSrc") with 8. change (id_off "IDiagDst") with 24.
  change (id_off "IDiagIf") with 40. change (id_off "IDiagCookie") with 44.
  change (idm_off "IDiagExpires") with 52. change (idm_off "IDiagRqueue") with 56.
  change (idm_off "IDiagWqueue") with 60. change (idm_off "IDiagUID") with 64.
  change (idm_off "IDiagInode") with 68.
  rewrite !sub_bytes_at by lia. rewrite !le_bytes_at. reflexivity.
Qed.

(** The loop: a field that only attribute k touches. *)

(** The switch with the numbers of the attribute types. *)
Definition attr_switch (t : nat) (raw : bytes) (r : snapshot) : outcome (snapshot * bool) :=
  match t with
  | 1 => into_ptr set_mem (to_struct MemInfo raw) r
  | 2 => into_ptr set_tcp (to_struct LinuxTCPInfo raw) r
  | 3 => into_ptr set_vegas (to_struct VegasInfo raw) r
  | 4 => bind (congestion_algorithm raw) (fun x => into set_cong x r)
  | 5 => into set_tos (to_uint8 raw) r
  | 6 => into set_tclass (to_uint8 raw) r
  | 7 => into_ptr set_skmem (to_struct SocketMemInfo raw) r
  | 8 => into set_shutdown (to_uint8 raw) r
  | 9 => into_ptr set_dctcp (to_struct DCTCPInfo raw) r
  | 10 => into set_protocol (to_uint8 raw) r
  | 15 => into set_mark (to_mark raw) r
  | 16 => into_ptr set_bbr (to_struct BBRInfo raw) r
  | 17 => into set_classid (to_uint8 raw) r
  | _ => Ret (r, false)
  end.
Lemma decode_attr_eq t raw r : decode_attr t raw r = attr_switch t raw r.
Proof. do 18 (destruct t as [|t]; [reflexivity|]). reflexivity. Qed.

Section Loop.
  Context {V : Type} (proj : snapshot -> V) (k : nat) (f : bytes -> V).
  Hypothesis other : forall t raw r r' ok, t <> k -> decode_attr t raw r = Ret (r', ok) -> proj r' = proj r.
  Hypothesis this : forall raw r r' ok, decode_attr k raw r = Ret (r', ok) -> proj r' = f raw.
  Hypothesis bits : forall o p r, proj (set_bits o p r) = proj r.

  Lemma loop_field attrs t r s : decode_attrs t attrs r = Ret s ->
    proj s = if t <=? k then match nth_error attrs (k - t) with Some (Some g) => f (vis g) | _ => proj r end
             else proj r.
  Proof.
    revert t r. induction attrs as [|[g|] rest IH]; intros t r H; cbn [decode_attrs] in H.
    - injection H as <-. destruct (k - t), (t <=? k); reflexivity.
    - destruct (decode_attr t (vis g) r) as [[r1 ok]| | |] eqn:E; cbn [bind] in H; try discriminate H.
      apply IH in H. rewrite H, bits.
      destruct (Nat.leb_spec t k) as [L|L].
      + destruct (Nat.eq_dec t k) as [->|Nt].
        * rewrite Nat.sub_diag. cbn [nth_error].
          replace (S k <=? k) with false by (symmetry; apply Nat.leb_gt; lia).
          apply this in E. exact E.
        * replace (S t <=? k) with true by (symmetry; apply Nat.leb_le; lia).
          replace (k - t) with (S (k - S t)) by lia. cbn [nth_error].
          rewrite (other _ _ _ _ _ Nt E). reflexivity.
      + replace (S t <=? k) with false by (symmetry; apply Nat.leb_gt; lia).
        apply (other _ _ _ _ _) in E; [exact E|lia].
    - apply IH in H. rewrite H.
      destruct (Nat.leb_spec t k) as [L|L].
      + destruct (Nat.eq_dec t k) as [->|Nt].
        * rewrite Nat.sub_diag. cbn [nth_error].
          replace (S k <=? k) with false by (symmetry; apply Nat.leb_gt; lia). reflexivity.
        * replace (S t <=? k) with true by (symmetry; apply Nat.leb_le; lia).
          replace (k - t) with (S (k - S t)) by lia. reflexivity.
      + replace (S t <=? k) with false by (symmetry; apply Nat.leb_gt; lia). reflexivity.
  Qed.
End Loop.

Lemma ret_pair {A B} (a c : A) (b d : B) : Ret (a, b) = Ret (c, d) -> c = a /\ d = b.
Proof. intros H. injection H as -> ->. split; reflexivity. Qed.

Ltac open_attr H :=
  rewrite decode_attr_eq in H; unfold attr_switch, into, into_ptr in H; cbn [bind] in H;
  try match type of H with context [congestion_algorithm ?raw] =>
    destruct (congestion_algorithm raw) as [[]| | |] eqn:?; cbn [bind] in H; try discriminate H end;
  apply ret_pair in H; destruct H as [-> ->].

Lemma loop_const {V} (proj : snapshot -> V) :
  (forall t raw r r' ok, decode_attr t raw r = Ret (r', ok) -> proj r' = proj r) ->
  (forall o p r, proj (set_bits o p r) = proj r) ->
  forall attrs t r s, decode_attrs t attrs r = Ret s -> proj s = proj r.
Proof.
  intros A B attrs. induction attrs as [|[g|] rest IH]; intros t r s H; cbn [decode_attrs] in H.
  - injection H as <-. reflexivity.
  - destruct (decode_attr t (vis g) r) as [[r1 ok]| | |] eqn:E; cbn [bind] in H; try discriminate H.
    apply IH in H. rewrite H, B. eapply A, E.
  - eapply IH, H.
Qed.

Ltac other_attr := let t := fresh "t" in let N := fresh "N" in let H := fresh "H" in
  let a := fresh in let b := fresh in let c := fresh in let d := fresh in intros t a b c d N H;
  do 18 (destruct t as [|t]; [first [contradiction N; reflexivity | open_attr H; reflexivity]|]);
  open_attr H; reflexivity.
Ltac this_attr := let H := fresh "H" in let a := fresh in let b := fresh in let c := fresh in let d := fresh in intros a b c d H; open_attr H; reflexivity.
Section Fields.
  Variables (attrs : list (option gslice)) (r s : snapshot).
  Hypothesis run : decode_attrs 0 attrs r = Ret s.
  Local Notation at_ k f d := (match nth_error attrs k with Some (Some g) => f (vis g) | _ => d end).

  Lemma final_mem : sn_mem s = at_ 1 (fun v => Some (fst (to_struct MemInfo v))) (sn_mem r).
  Proof. rewrite (loop_field sn_mem 1 (fun v => Some (fst (to_struct MemInfo v))) ltac:(other_attr) ltac:(this_attr) ltac:(reflexivity) _ _ _ _ run). reflexivity. Qed.
  Lemma final_tcp : sn_tcp s = at_ 2 (fun v => Some (fst (to_struct LinuxTCPInfo v))) (sn_tcp r).
  Proof. rewrite (loop_field sn_tcp 2 (fun v => Some (fst (to_struct LinuxTCPInfo v))) ltac:(other_attr) ltac:(this_attr) ltac:(reflexivity) _ _ _ _ run). reflexivity. Qed.
  Lemma final_vegas : sn_vegas s = at_ 3 (fun v => Some (fst (to_struct VegasInfo v))) (sn_vegas r).
  Proof. rewrite (loop_field sn_vegas 3 (fun v => Some (fst (to_struct VegasInfo v))) ltac:(other_attr) ltac:(this_attr) ltac:(reflexivity) _ _ _ _ run). reflexivity. Qed.
  Lemma final_cong : sn_cong s = at_ 4 (fun v => firstn (length v - 1) v) (sn_cong r).
  Proof.
    rewrite (loop_field sn_cong 4 (fun v => firstn (length v - 1) v) ltac:(other_attr)
      ltac:(let H := fresh in intros raw r0 r' ok H; rewrite decode_attr_eq in H; unfold attr_switch, congestion_algorithm, into in H;
            destruct (length raw =? 0); cbn [bind] in H; [discriminate H|injection H as <- <-; reflexivity])
      ltac:(reflexivity) _ _ _ _ run). reflexivity.
  Qed.
  Lemma final_tos : sn_tos s = at_ 5 (fun v => fst (to_uint8 v)) (sn_tos r).
  Proof. rewrite (loop_field sn_tos 5 (fun v => fst (to_uint8 v)) ltac:(other_attr) ltac:(this_attr) ltac:(reflexivity) _ _ _ _ run). reflexivity. Qed.
  Lemma final_tclass : sn_tclass s = at_ 6 (fun v => fst (to_uint8 v)) (sn_tclass r).
  Proof. rewrite (loop_field sn_tclass 6 (fun v => fst (to_uint8 v)) ltac:(other_attr) ltac:(this_attr) ltac:(reflexivity) _ _ _ _ run). reflexivity. Qed.
  Lemma final_skmem : sn_skmem s = at_ 7 (fun v => Some (fst (to_struct SocketMemInfo v))) (sn_skmem r).
  Proof. rewrite (loop_field sn_skmem 7 (fun v => Some (fst (to_struct SocketMemInfo v))) ltac:(other_attr) ltac:(this_attr) ltac:(reflexivity) _ _ _ _ run). reflexivity. Qed.
  Lemma final_shutdown : sn_shutdown s = at_ 8 (fun v => fst (to_uint8 v)) (sn_shutdown r).
  Proof. rewrite (loop_field sn_shutdown 8 (fun v => fst (to_uint8 v)) ltac:(other_attr) ltac:(this_attr) ltac:(reflexivity) _ _ _ _ run). reflexivity. Qed.
  Lemma final_dctcp : sn_dctcp s = at_ 9 (fun v => Some (fst (to_struct DCTCPInfo v))) (sn_dctcp r).
  Proof. rewrite (loop_field sn_dctcp 9 (fun v => Some (fst (to_struct DCTCPInfo v))) ltac:(other_attr) ltac:(this_attr) ltac:(reflexivity) _ _ _ _ run). reflexivity. Qed.
  Lemma final_protocol : sn_protocol s = at_ 10 (fun v => fst (to_uint8 v)) (sn_protocol r).
  Proof. rewrite (loop_field sn_protocol 10 (fun v => fst (to_uint8 v)) ltac:(other_attr) ltac:(this_attr) ltac:(reflexivity) _ _ _ _ run). reflexivity. Qed.
  Lemma final_mark : sn_mark s = at_ 15 (fun v => fst (to_mark v)) (sn_mark r).
  Proof. rewrite (loop_field sn_mark 15 (fun v => fst (to_mark v)) ltac:(other_attr) ltac:(this_attr) ltac:(reflexivity) _ _ _ _ run). reflexivity. Qed.
  Lemma final_bbr : sn_bbr s = at_ 16 (fun v => Some (fst (to_struct BBRInfo v))) (sn_bbr r).
  Proof. rewrite (loop_field sn_bbr 16 (fun v => Some (fst (to_struct BBRInfo v))) ltac:(other_attr) ltac:(this_attr) ltac:(reflexivity) _ _ _ _ run). reflexivity. Qed.
  Lemma final_classid : sn_classid s = at_ 17 (fun v => fst (to_uint8 v)) (sn_classid r).
  Proof. rewrite (loop_field sn_classid 17 (fun v => fst (to_uint8 v)) ltac:(other_attr) ltac:(this_attr) ltac:(reflexivity) _ _ _ _ run). reflexivity. Qed.
  Lemma final_time : sn_time s = sn_time r.
  Proof.
    refine (loop_const sn_time _ _ _ _ _ _ run); [|reflexivity].
    intros t raw r0 r' ok H. do 18 (destruct t as [|t]; [open_attr H; reflexivity|]). open_attr H. reflexivity.
  Qed.
  Lemma final_idm : sn_idm s = sn_idm r.
  Proof.
    refine (loop_const sn_idm _ _ _ _ _ _ run); [|reflexivity].
    intros t raw r0 r' ok H. do 18 (destruct t as [|t]; [open_attr H; reflexivity|]). open_attr H. reflexivity.
  Qed.
End Fields.

(** The bits. *)

Lemma attr_keeps_bits t raw r r' ok : decode_attr t raw r = Ret (r', ok) ->
  sn_observed r' = sn_observed r /\ sn_notparsed r' = sn_notparsed r.
Proof.
  intros H. do 18 (destruct t as [|t]; [open_attr H; split; reflexivity|]). open_attr H. split; reflexivity.
Qed.

Lemma ok_iff t raw r r' ok : decode_attr t raw r = Ret (r', ok) -> (ok = false <-> poorly_parsed t raw).
Proof.
  assert (ST : forall st n, sizeof st = n -> struct_size t = Some n -> undecoded t = false -> one_byte t = false -> t <> 15 ->
            (snd (to_struct st raw) = false <-> poorly_parsed t raw)).
  { intros st n E1 E2 E3 E4 E5. rewrite <- not_true_iff_false, to_struct_ok, E1. unfold poorly_parsed. split.
    - intros H. right. left. exists n. split; [exact E2|lia].
    - intros [H|[[m [H1 H2]]|[[H1 H2]|[H1 H2]]]]; [congruence| |congruence|congruence].
      rewrite E2 in H1. injection H1 as <-. lia. }
  assert (U8 : struct_size t = None -> undecoded t = false -> one_byte t = true -> t <> 15 ->
            (snd (to_uint8 raw) = false <-> poorly_parsed t raw)).
  { intros E2 E3 E4 E5. unfold poorly_parsed. split.
    - intros H. right. right. left. split; [exact E4|]. destruct raw; [reflexivity|discriminate H].
    - intros [H|[[m [H1 H2]]|[[H1 H2]|[H1 H2]]]]; [congruence|congruence|subst raw; reflexivity|congruence]. }
  assert (UN : undecoded t = true -> (false = false <-> poorly_parsed t raw)).
  { intros H. split; [left; exact H|reflexivity]. }
  assert (CG : t = 4 -> forall c b, congestion_algorithm raw = Ret (c, b) -> (b = false <-> poorly_parsed t raw)).
  { intros -> c b H. unfold congestion_algorithm in H. destruct (length raw =? 0); [discriminate H|].
    injection H as _ <-. split; [discriminate|]. intros [H|[[m [H1 H2]]|[[H1 H2]|[H1 H2]]]]; discriminate. }
  assert (MK : t = 15 -> (snd (to_mark raw) = false <-> poorly_parsed t raw)).
  { intros ->. unfold to_mark. destruct (Nat.eqb_spec (length raw) 4) as [E|E]; cbn [snd]; split; intros H;
      try discriminate H; try reflexivity.
    - exfalso. destruct H as [H|[[m [H1 H2]]|[[H1 H2]|[H1 H2]]]]; try discriminate. contradiction.
    - right. right. right. split; [reflexivity|exact E]. }
  intros H.
  do 18 (destruct t as [|t]; [open_attr H;
    first [ exact (UN eq_refl) | apply (U8 eq_refl eq_refl eq_refl); discriminate
          | exact (MK eq_refl) | exact (CG eq_refl _ _ eq_refl)
          | eapply ST; [reflexivity|reflexivity|reflexivity|reflexivity|discriminate] ]|]).
  open_attr H. exact (UN eq_refl).
Qed.

Lemma loop_bits attrs t r s i : decode_attrs t attrs r = Ret s ->
  (N.testbit (sn_observed s) i = true <->
     N.testbit (sn_observed r) i = true \/
     exists j g, nth_error attrs j = Some (Some g) /\ N.testbit (attr_bit (t + j)) i = true) /\
  (N.testbit (sn_notparsed s) i = true <->
     N.testbit (sn_notparsed r) i = true \/
     exists j g, nth_error attrs j = Some (Some g) /\ N.testbit (attr_bit (t + j)) i = true
                 /\ poorly_parsed (t + j) (vis g)).
Proof.
  revert t r. induction attrs as [|[g|] rest IH]; intros t r H; cbn [decode_attrs] in H.
  - injection H as <-. split; (split; [intros H; left; exact H|]); intros [H|(j & g & H & _)]; try exact H;
      destruct j; discriminate H.
  - destruct (decode_attr t (vis g) r) as [[r1 ok]| | |] eqn:E; cbn [bind] in H; try discriminate H.
    apply IH in H. destruct H as [H1 H2]. destruct (attr_keeps_bits _ _ _ _ _ E) as [K1 K2].
    cbn [set_bits sn_observed sn_notparsed] in H1, H2. rewrite K1 in H1. rewrite K2 in H2.
    pose proof (ok_iff _ _ _ _ _ E) as OK.
    split.
    + rewrite H1, N.lor_spec, orb_true_iff. split.
      * intros [[H|H]|(j & g' & H & H')]; [left; exact H| |].
        -- right. exists 0, g. rewrite Nat.add_0_r. split; [reflexivity|exact H].
        -- right. exists (S j), g'. rewrite Nat.add_succ_r. split; assumption.
      * intros [H|(j & g' & H & H')]; [left; left; exact H|]. destruct j as [|j].
        -- left. right. rewrite Nat.add_0_r in H'. exact H'.
        -- right. exists j, g'. rewrite Nat.add_succ_r in H'. split; assumption.
    + rewrite H2. split.
      * intros [H|(j & g' & H & H' & H'')].
        -- destruct ok; [left; exact H|]. rewrite N.lor_spec, orb_true_iff in H. destruct H as [H|H]; [left; exact H|].
           right. exists 0, g. rewrite Nat.add_0_r. split; [reflexivity|split; [exact H|apply OK; reflexivity]].
        -- right. exists (S j), g'. rewrite Nat.add_succ_r. split; [|split]; assumption.
      * intros [H|(j & g' & H & H' & H'')].
        -- left. destruct ok; [exact H|]. rewrite N.lor_spec, H. reflexivity.
        -- destruct j as [|j].
           ++ left. rewrite Nat.add_0_r in H', H''. injection H as <-. apply OK in H''. subst ok.
              rewrite N.lor_spec, H'. apply orb_true_r.
           ++ right. exists j, g'. rewrite Nat.add_succ_r in H', H''. split; [|split]; assumption.
  - apply IH in H. destruct H as [H1 H2]. rewrite H1, H2. split.
    + split; (intros [H|(j & g' & H & H')]; [left; exact H|]).
      * right. exists (S j), g'. rewrite Nat.add_succ_r. split; assumption.
      * destruct j as [|j]; [discriminate H|]. right. exists j, g'. rewrite Nat.add_succ_r in H'. split; assumption.
    + split; (intros [H|(j & g' & H & H')]; [left; exact H|]).
      * right. exists (S j), g'. rewrite Nat.add_succ_r. split; assumption.
      * destruct j as [|j]; [discriminate H|]. right. exists j, g'. rewrite Nat.add_succ_r in H'. split; assumption.
Qed.

Lemma attr_bit_spec t i : t <= 256 -> (N.testbit (attr_bit t) i = true <-> (i < 32)%N /\ t = S (N.to_nat i)).
Proof.
  intros H. unfold attr_bit. set (q := ((N.of_nat t + 255) mod 256)%N).
  assert (Q : (t = 0 /\ q = 255%N) \/ (t <> 0 /\ q = (N.of_nat t - 1)%N)).
  { destruct t as [|t]; [left; split; reflexivity|right; split; [discriminate|]]. unfold q.
    replace (N.of_nat (S t) + 255)%N with (N.of_nat t + 1 * 256)%N by lia.
    rewrite N.mod_add by discriminate. rewrite N.mod_small; lia. }
  destruct (N.ltb_spec q 32).
  - rewrite N.shiftl_1_l, N.pow2_bits_eqb, N.eqb_eq. lia.
  - rewrite N.bits_0. split; [discriminate|]. lia.
Qed.

(** When the loop stops. *)

Lemma attr_outcome t raw r : (t = 4 /\ raw = [] /\ decode_attr t raw r = Panic) \/
  (~ (t = 4 /\ raw = []) /\ exists x, decode_attr t raw r = Ret x).
Proof.
  destruct (Nat.eq_dec t 4) as [->|N].
  - destruct raw as [|b raw].
    + left. split; [reflexivity|split; reflexivity].
    + right. split; [intros [_ H]; discriminate H|]. eexists. reflexivity.
  - right. split; [intros [H _]; contradiction|].
    rewrite decode_attr_eq. do 18 (destruct t as [|t]; [first [contradiction N; reflexivity|eexists; reflexivity]|]). eexists. reflexivity.
Qed.

Lemma loop_outcome attrs t r :
  (decode_attrs t attrs r = Panic /\ exists j g, t + j = 4 /\ nth_error attrs j = Some (Some g) /\ vis g = []) \/
  ((exists s, decode_attrs t attrs r = Ret s) /\
   ~ exists j g, t + j = 4 /\ nth_error attrs j = Some (Some g) /\ vis g = []).
Proof.
  revert t r. induction attrs as [|[g|] rest IH]; intros t r; cbn [decode_attrs].
  - right. split; [eexists; reflexivity|]. intros (j & g & _ & H & _). destruct j; discriminate H.
  - destruct (attr_outcome t (vis g) r) as [(-> & Hv & E)|(Hn & [r1 ok] & E)]; rewrite E; cbn [bind].
    + left. split; [reflexivity|]. exists 0, g. split; [reflexivity|split; [reflexivity|exact Hv]].
    + destruct (IH (S t) (set_bits (N.lor (sn_observed r1) (attr_bit t))
         (if ok then sn_notparsed r1 else N.lor (sn_notparsed r1) (attr_bit t)) r1)) as [(E1 & j & g' & H1 & H2 & H3)|(E1 & H1)].
      * left. split; [exact E1|]. exists (S j), g'. split; [lia|split; assumption].
      * right. split; [exact E1|]. intros (j & g' & H2 & H3 & H4). destruct j as [|j].
        -- injection H3 as <-. apply Hn. split; [lia|exact H4].
        -- apply H1. exists j, g'. split; [lia|split; assumption].
  - destruct (IH (S t) r) as [(E1 & j & g' & H1 & H2 & H3)|(E1 & H1)].
    + left. split; [exact E1|]. exists (S j), g'. split; [lia|split; assumption].
    + right. split; [exact E1|]. intros (j & g' & H2 & H3 & H4). destruct j as [|j]; [discriminate H3|].
      apply H1. exists j, g'. split; [lia|split; assumption].
Qed.

(** Decode. *)

Lemma decode_cases ar :
  (ar_meta ar = None /\ ar_raw ar = None /\ decode ar = Fail ErrEmptyRecord) \/
  (exists raw, ar_raw ar = Some raw /\ length raw < 72 /\ decode ar = Fail ErrParseFailed) \/
  (acceptable ar /\ exists r,
     r = (match ar_raw ar with None => new_snapshot (ar_time ar)
          | Some raw => set_idm (Some (header_at raw)) (new_snapshot (ar_time ar)) end) /\
     decode ar = bind (decode_attrs 0 (ar_attrs ar) r) (fun s => Ret (ar_meta ar, s))).
Proof.
  unfold decode, acceptable. destruct (ar_raw ar) as [raw|].
  - right. unfold parse_idm. cbn [raw_bytes]. change idm_size with 72.
    destruct (Nat.ltb_spec (length raw) 72) as [L|L].
    + left. exists raw. split; [reflexivity|]. split; [exact L|]. destruct (ar_meta ar); reflexivity.
    + right. split; [exact L|]. eexists. split; [reflexivity|].
      rewrite (load_idm_header _ L). destruct (ar_meta ar); reflexivity.
  - destruct (ar_meta ar) as [m|].
    + right. right. split; [discriminate|]. eexists. split; reflexivity.
    + left. split; [reflexivity|split; reflexivity].
Qed.

Lemma attr_cong ar : (exists j g, 0 + j = 4 /\ nth_error (ar_attrs ar) j = Some (Some g) /\ vis g = []) <-> attr ar 4 = Some [].
Proof.
  unfold attr. split.
  - intros (j & g & H1 & H2 & H3). cbn [Nat.add] in H1. subst j. rewrite H2, H3. reflexivity.
  - intros H. destruct (nth_error (ar_attrs ar) 4) as [[g|]|] eqn:E; try discriminate H.
    exists 4, g. split; [reflexivity|]. split; [exact E|]. injection H as H. exact H.
Qed.

Lemma decode_panic ar : decode ar = Panic <-> acceptable ar /\ attr ar 4 = Some [].
Proof.
  rewrite <- attr_cong. destruct (decode_cases ar) as [(H1 & H2 & ->)|[(raw & H1 & H2 & ->)|(A & r & _ & ->)]].
  - unfold acceptable. rewrite H2. split; [discriminate|]. intros [H _]. contradiction.
  - unfold acceptable. rewrite H1. split; [discriminate|]. intros [H _]. lia.
  - destruct (loop_outcome (ar_attrs ar) 0 r) as [(-> & H)|((s & ->) & H)]; cbn [bind].
    + split; [intros _; split; assumption|reflexivity].
    + split; [discriminate|]. intros [_ H']. contradiction.
Qed.

Lemma decode_ret ar : (exists x, decode ar = Ret x) <-> acceptable ar /\ attr ar 4 <> Some [].
Proof.
  rewrite <- attr_cong. destruct (decode_cases ar) as [(H1 & H2 & ->)|[(raw & H1 & H2 & ->)|(A & r & _ & ->)]].
  - unfold acceptable. rewrite H2. split; [intros [x H]; discriminate H|]. intros [H _]. contradiction.
  - unfold acceptable. rewrite H1. split; [intros [x H]; discriminate H|]. intros [H _]. lia.
  - destruct (loop_outcome (ar_attrs ar) 0 r) as [(-> & H)|((s & ->) & H)]; cbn [bind].
    + split; [intros [x H']; discriminate H'|]. intros [_ H']. contradiction.
    + split; [intros _; split; assumption|]. intros _. eexists. reflexivity.
Qed.

Lemma decode_fail ar e : decode ar = Fail e <->
  (ar_raw ar = None /\ ar_meta ar = None /\ e = ErrEmptyRecord) \/
  (exists raw, ar_raw ar = Some raw /\ length raw < 72 /\ e = ErrParseFailed).
Proof.
  destruct (decode_cases ar) as [(H1 & H2 & ->)|[(raw & H1 & H2 & ->)|(A & r & _ & ->)]].
  - split.
    + intros H. injection H as <-. left. split; [exact H2|split; [exact H1|reflexivity]].
    + intros [(_ & _ & ->)|(raw & H & _)]; [reflexivity|]. congruence.
  - split.
    + intros H. injection H as <-. right. exists raw. split; [exact H1|split; [exact H2|reflexivity]].
    + intros [(H & _)|(_ & _ & _ & ->)]; [congruence|reflexivity].
  - split.
    + destruct (loop_outcome (ar_attrs ar) 0 r) as [(-> & H)|((s & ->) & H)]; cbn [bind]; discriminate.
    + unfold acceptable in A. intros [(H1 & H2 & _)|(raw & H1 & H2 & _)]; rewrite H1 in A; [contradiction|lia].
Qed.

Lemma removelast_firstn' (l : bytes) : firstn (length l - 1) l = removelast l.
Proof.
  destruct l as [|b l]; [reflexivity|]. symmetry. rewrite removelast_firstn_len.
  replace (Nat.pred (length (b :: l))) with (length (b :: l) - 1) by (cbn [length]; lia). reflexivity.
Qed.

Lemma uint8_byte raw : fst (to_uint8 raw) = byte_at raw 0.
Proof. destruct raw; reflexivity. Qed.

Lemma mark_number raw : fst (to_mark raw) = if length raw =? 4 then number_at raw 0 4 else 0%N.
Proof.
  unfold to_mark. destruct (Nat.eqb_spec (length raw) 4) as [E|E]; [|reflexivity]. cbn [fst].
  rewrite <- le_bytes_at, <- sub_bytes_at by lia. unfold sub. cbn [skipn]. rewrite firstn_all2 by lia. reflexivity.
Qed.

Lemma decode_spec ar m s : decode ar = Ret (m, s) -> m = ar_meta ar /\ decoded ar s.
Proof.
  intros H. destruct (decode_cases ar) as [(_ & _ & E)|[(raw & _ & _ & E)|(A & r & R & E)]]; rewrite E in H;
    try discriminate H.
  destruct (decode_attrs 0 (ar_attrs ar) r) as [s'| | |] eqn:D; cbn [bind] in H; try discriminate H.
  apply ret_pair in H. destruct H as [-> ->]. split; [reflexivity|].
  assert (Z : sn_mem r = None /\ sn_tcp r = None /\ sn_vegas r = None /\ sn_cong r = [] /\ sn_tos r = 0%N
     /\ sn_tclass r = 0%N /\ sn_skmem r = None /\ sn_shutdown r = 0%N /\ sn_dctcp r = None
     /\ sn_protocol r = 0%N /\ sn_mark r = 0%N /\ sn_bbr r = None /\ sn_classid r = 0%N
     /\ sn_time r = ar_time ar /\ sn_idm r = option_map header_at (ar_raw ar)).
  { subst r. destruct (ar_raw ar); repeat split. }
  destruct Z as (Z1 & Z2 & Z3 & Z4 & Z5 & Z6 & Z7 & Z8 & Z9 & Z10 & Z11 & Z12 & Z13 & Z14 & Z15).
  unfold decoded, attr_or, attr.
  rewrite (final_time _ _ _ D), (final_idm _ _ _ D), (final_mem _ _ _ D), (final_tcp _ _ _ D),
    (final_vegas _ _ _ D), (final_cong _ _ _ D), (final_tos _ _ _ D), (final_tclass _ _ _ D),
    (final_skmem _ _ _ D), (final_shutdown _ _ _ D), (final_dctcp _ _ _ D), (final_protocol _ _ _ D),
    (final_mark _ _ _ D), (final_bbr _ _ _ D), (final_classid _ _ _ D).
  rewrite Z1, Z2, Z3, Z4, Z5, Z6, Z7, Z8, Z9, Z10, Z11, Z12, Z13, Z14, Z15.
  repeat match goal with |- _ /\ _ => split end; try reflexivity;
    (match goal with |- match nth_error _ ?k with _ => _ end = _ =>
       destruct (nth_error (ar_attrs ar) k) as [[g|]|]; [|reflexivity|reflexivity] end).
  - rewrite mem_struct. reflexivity.
  - rewrite tcp_struct. reflexivity.
  - rewrite vegas_struct. reflexivity.
  - apply removelast_firstn'.
  - apply uint8_byte.
  - apply uint8_byte.
  - rewrite skmem_struct. reflexivity.
  - apply uint8_byte.
  - rewrite dctcp_struct. reflexivity.
  - apply uint8_byte.
  - apply mark_number.
  - rewrite bbr_struct. reflexivity.
  - apply uint8_byte.
Qed.

Lemma decode_run ar m s : decode ar = Ret (m, s) ->
  exists r, decode_attrs 0 (ar_attrs ar) r = Ret s /\ sn_observed r = 0%N /\ sn_notparsed r = 0%N.
Proof.
  intros H. destruct (decode_cases ar) as [(_ & _ & E)|[(raw & _ & _ & E)|(A & r & R & E)]]; rewrite E in H;
    try discriminate H.
  destruct (decode_attrs 0 (ar_attrs ar) r) as [s'| | |] eqn:D; cbn [bind] in H; try discriminate H.
  apply ret_pair in H. destruct H as [-> ->]. exists r. split; [exact D|].
  subst r. destruct (ar_raw ar); split; reflexivity.
Qed.

Lemma nth_error_lt {A} (l : list A) j x : nth_error l j = Some x -> j < length l.
Proof. intros H. apply nth_error_Some. congruence. Qed.

Lemma observed_bits ar m s i : length (ar_attrs ar) <= 256 -> decode ar = Ret (m, s) ->
  (N.testbit (sn_observed s) i = true <-> (i < 32)%N /\ exists raw, attr ar (S (N.to_nat i)) = Some raw).
Proof.
  intros L H. destruct (decode_run _ _ _ H) as (r & D & O & P).
  destruct (loop_bits _ _ _ _ i D) as [B _]. rewrite B, O, N.bits_0. unfold attr. split.
  - intros [H'|(j & g & H1 & H2)]; [discriminate H'|].
    apply attr_bit_spec in H2; [|apply nth_error_lt in H1; lia]. destruct H2 as [H2 H3]. cbn [Nat.add] in H3.
    split; [exact H2|]. exists (vis g). rewrite <- H3, H1. reflexivity.
  - intros [H1 [raw H2]]. right. destruct (nth_error (ar_attrs ar) (S (N.to_nat i))) as [[g|]|] eqn:E; try discriminate H2.
    exists (S (N.to_nat i)), g. split; [exact E|]. apply attr_bit_spec; [apply nth_error_lt in E; lia|].
    split; [exact H1|reflexivity].
Qed.

Lemma notparsed_bits ar m s i : length (ar_attrs ar) <= 256 -> decode ar = Ret (m, s) ->
  (N.testbit (sn_notparsed s) i = true <->
   (i < 32)%N /\ exists raw, attr ar (S (N.to_nat i)) = Some raw /\ poorly_parsed (S (N.to_nat i)) raw).
Proof.
  intros L H. destruct (decode_run _ _ _ H) as (r & D & O & P).
  destruct (loop_bits _ _ _ _ i D) as [_ B]. rewrite B, P, N.bits_0. unfold attr. split.
  - intros [H'|(j & g & H1 & H2 & H4)]; [discriminate H'|].
    apply attr_bit_spec in H2; [|apply nth_error_lt in H1; lia]. destruct H2 as [H2 H3]. cbn [Nat.add] in H3, H4.
    split; [exact H2|]. exists (vis g). rewrite <- H3, H1. split; [reflexivity|exact H4].
  - intros [H1 [raw [H2 H4]]]. right.
    destruct (nth_error (ar_attrs ar) (S (N.to_nat i))) as [[g|]|] eqn:E; try discriminate H2.
    exists (S (N.to_nat i)), g. split; [exact E|]. injection H2 as ->. split; [|exact H4].
    apply attr_bit_spec; [apply nth_error_lt in E; lia|]. split; [exact H1|reflexivity].
Qed.

Lemma notparsed_subset ar m s i : decode ar = Ret (m, s) ->
  N.testbit (sn_notparsed s) i = true -> N.testbit (sn_observed s) i = true.
Proof.
  intros H. destruct (decode_run _ _ _ H) as (r & D & O & P).
  destruct (loop_bits _ _ _ _ i D) as [A B]. rewrite A, B, O, P, N.bits_0.
  intros [H'|(j & g & H1 & H2 & H4)]; [discriminate H'|]. right. exists j, g. split; assumption.
Qed.

(** LoadAll. *)

Lemma snap_next_ret {S} (next : reader S) s r s' : next s = (Ret r, s') -> snap_next next s = (decode (timed r), s').
Proof. intros H. unfold snap_next. rewrite H. reflexivity. Qed.

Lemma timed_meta r : ar_meta (timed r) = ar_meta r.
Proof. unfold timed. destruct (Z.eqb _ _); reflexivity. Qed.

Definition pick (a : option metadata) (r : archival) := match ar_meta r with Some x => Some x | None => a end.

(** The outcome of reading, by the first record that does not decode. *)
Fixpoint expected (rs : list archival) (e : goerr) (meta : option metadata) (snaps : list snapshot)
  : outcome (option metadata * list snapshot) :=
  match rs with
  | [] => match e with ErrEOF => Ret (meta, snaps) | _ => Fail e end
  | r :: rest => match decode (timed r) with
      | Ret (_, s) => expected rest e (pick meta r) (snaps ++ [s])
      | Fail x => Fail x
      | Panic => Panic
      | Diverge => Diverge
      end
  end.

Lemma decode_not_eof ar : decode ar <> Fail ErrEOF.
Proof.
  intros H. apply decode_fail in H. destruct H as [(_ & _ & H)|(raw & _ & _ & H)]; discriminate H.
Qed.

Lemma load_all_expected {S} (next : reader S) s rs e : yields next s rs e ->
  forall fuel meta snaps, length rs < fuel -> load_all_go fuel next s meta snaps = expected rs e meta snaps.
Proof.
  induction 1 as [s s' e H|s s' r rs e H Y IH]; intros fuel meta snaps L;
    (destruct fuel as [|fuel]; [lia|]); cbn [load_all_go length] in *.
  - unfold snap_next. rewrite H. cbn [expected]. destruct e; reflexivity.
  - rewrite (snap_next_ret _ _ _ _ H). cbn [expected].
    destruct (decode (timed r)) as [[m sn]|x| |] eqn:D; [|destruct x; try reflexivity|reflexivity|reflexivity].
    + rewrite (IH fuel) by lia. f_equal. destruct (decode_spec _ _ _ D) as [E _]. subst m.
      rewrite timed_meta. unfold pick. destruct (ar_meta r); reflexivity.
    + exfalso. exact (decode_not_eof _ D).
Qed.

Lemma expected_ret rs e meta snaps m ss : expected rs e meta snaps = Ret (m, ss) <->
  e = ErrEOF /\ m = fold_left pick rs meta /\
  exists new, ss = snaps ++ new /\ Forall2 (fun r s => decode (timed r) = Ret (ar_meta r, s)) rs new.
Proof.
  revert meta snaps. induction rs as [|r rs IH]; intros meta snaps; cbn [expected fold_left].
  - split.
    + intros H. assert (E : e = ErrEOF) by (destruct e; try reflexivity; discriminate H). subst e.
      apply ret_pair in H. destruct H as [-> ->]. split; [reflexivity|split; [reflexivity|]].
      exists []. rewrite app_nil_r. split; [reflexivity|constructor].
    + intros (-> & -> & new & -> & H). inversion H. rewrite app_nil_r. reflexivity.
  - destruct (decode (timed r)) as [[m' sn]|x| |] eqn:D.
    + rewrite IH. pose proof (proj1 (decode_spec _ _ _ D)) as Em. rewrite timed_meta in Em. subst m'. split.
      * intros (-> & -> & new & -> & H). split; [reflexivity|split; [reflexivity|]].
        exists (sn :: new). split; [rewrite <- app_assoc; reflexivity|]. constructor; [exact D|exact H].
      * intros (-> & -> & new & -> & H). split; [reflexivity|split; [reflexivity|]].
        inversion H as [|? sn' ? new' H1 H2]; subst. rewrite D in H1. apply ret_pair in H1. destruct H1 as [_ ->].
        exists new'. split; [rewrite <- app_assoc; reflexivity|exact H2].
    + split; [discriminate|]. intros (_ & _ & new & _ & H). inversion H; subst. congruence.
    + split; [discriminate|]. intros (_ & _ & new & _ & H). inversion H; subst. congruence.
    + split; [discriminate|]. intros (_ & _ & new & _ & H). inversion H; subst. congruence.
Qed.

Lemma expected_stop rs e meta snaps (bad : outcome (option metadata * list snapshot)) (x : outcome (option metadata * snapshot)) :
  (bad = Panic /\ x = Panic) \/ (exists y, y <> ErrEOF /\ bad = Fail y /\ x = Fail y) ->
  (expected rs e meta snaps = bad <->
   (exists rs1 r rs2, rs = rs1 ++ r :: rs2 /\ Forall decodes rs1 /\ decode (timed r) = x) \/
   (Forall decodes rs /\ bad = Fail e /\ e <> ErrEOF)).
Proof.
  intros HB. revert meta snaps. induction rs as [|r rs IH]; intros meta snaps; cbn [expected].
  - split.
    + intros H. right. split; [constructor|]. destruct e; try (split; [symmetry; exact H|discriminate]).
      destruct HB as [[-> _]|(y & _ & -> & _)]; discriminate H.
    + intros [(rs1 & r & rs2 & H & _)|(_ & -> & N)].
      * destruct rs1; discriminate H.
      * destruct e; try reflexivity. contradiction.
  - destruct (decode (timed r)) as [[m' sn]|y| |] eqn:D.
    + rewrite IH. split.
      * intros [(rs1 & r' & rs2 & -> & H1 & H2)|(H1 & H2 & H3)].
        -- left. exists (r :: rs1), r', rs2. split; [reflexivity|]. split; [|exact H2].
           constructor; [eexists; exact D|exact H1].
        -- right. split; [|split; assumption]. constructor; [eexists; exact D|exact H1].
      * intros [(rs1 & r' & rs2 & E & H1 & H2)|(H1 & H2 & H3)].
        -- destruct rs1 as [|r1 rs1]; injection E as <- E.
           ++ rewrite D in H2. destruct HB as [[_ ->]|(y & _ & _ & ->)]; discriminate H2.
           ++ left. exists rs1, r', rs2. split; [exact E|]. inversion H1; subst. split; [assumption|reflexivity].
        -- right. inversion H1; subst. split; [assumption|split; [reflexivity|assumption]].
    + split.
      * intros H. left. exists [], r, rs. split; [reflexivity|split; [constructor|]]. rewrite D.
        destruct HB as [[-> _]|(z & _ & -> & ->)]; [discriminate H|]. injection H as ->. reflexivity.
      * intros [(rs1 & r' & rs2 & E & H1 & H2)|(H1 & _)].
        -- destruct rs1 as [|r1 rs1]; injection E as <- E.
           ++ rewrite D in H2. destruct HB as [[_ ->]|(z & _ & -> & ->)]; [discriminate H2|]. injection H2 as ->. reflexivity.
           ++ inversion H1 as [|? ? [x0 H3]]; subst. congruence.
        -- inversion H1 as [|? ? [x0 H3]]; subst. congruence.
    + split.
      * intros H. left. exists [], r, rs. split; [reflexivity|split; [constructor|]]. rewrite D.
        destruct HB as [[_ ->]|(z & _ & -> & ->)]; [reflexivity|discriminate H].
      * intros [(rs1 & r' & rs2 & E & H1 & H2)|(H1 & _)].
        -- destruct rs1 as [|r1 rs1]; injection E as <- E.
           ++ rewrite D in H2. destruct HB as [[-> ->]|(z & _ & -> & ->)]; [reflexivity|discriminate H2].
           ++ inversion H1 as [|? ? [x0 H3]]; subst. congruence.
        -- inversion H1 as [|? ? [x0 H3]]; subst. congruence.
    + exfalso. destruct (decode_cases (timed r)) as [(_ & _ & E)|[(raw & _ & _ & E)|(A & r0 & R & E)]]; rewrite E in D;
        try discriminate D.
      destruct (loop_outcome (ar_attrs (timed r)) 0 r0) as [(E1 & _)|((s & E1) & _)]; rewrite E1 in D; discriminate D.
Qed.

Lemma load_all_ret {S} (next : reader S) s rs e fuel m ss : yields next s rs e -> length rs < fuel ->
  (load_all fuel next s = Ret (m, ss) <->
   e = ErrEOF /\ m = last_meta rs /\ Forall2 (fun r sn => decode (timed r) = Ret (ar_meta r, sn)) rs ss).
Proof.
  intros Y L. unfold load_all. rewrite (load_all_expected _ _ _ _ Y _ _ _ L), expected_ret. split.
  - intros (-> & -> & new & -> & H). split; [reflexivity|split; [reflexivity|exact H]].
  - intros (-> & -> & H). split; [reflexivity|split; [reflexivity|]]. exists ss. split; [reflexivity|exact H].
Qed.

Lemma load_all_fail {S} (next : reader S) s rs e fuel x : yields next s rs e -> length rs < fuel ->
  (load_all fuel next s = Fail x <->
   (exists rs1 r rs2, rs = rs1 ++ r :: rs2 /\ Forall decodes rs1 /\ decode (timed r) = Fail x) \/
   (Forall decodes rs /\ x = e /\ e <> ErrEOF)).
Proof.
  intros Y L. unfold load_all. rewrite (load_all_expected _ _ _ _ Y _ _ _ L).
  assert (D : x = ErrEOF \/ x <> ErrEOF) by (destruct x; first [left; reflexivity|right; discriminate]).
  destruct D as [->|N].
  - split.
    + intros H. exfalso. revert H. generalize (@None metadata) (@nil snapshot). clear. induction rs as [|r rs IH]; intros m ss; cbn [expected].
      * destruct e; discriminate.
      * destruct (decode (timed r)) as [[]|y| |] eqn:D; [apply IH| |discriminate|discriminate].
        intros H. injection H as ->. exact (decode_not_eof _ D).
    + intros [(rs1 & r & rs2 & _ & _ & H)|(_ & <- & N)]; [|contradiction N; reflexivity].
      exfalso. exact (decode_not_eof _ H).
  - rewrite (expected_stop _ _ _ _ (Fail x) (Fail x)).
    + split; (intros [H|(H1 & H2 & H3)]; [left; exact H|right]).
      * injection H2 as H2. split; [exact H1|split; [exact H2|exact H3]].
      * subst e. split; [exact H1|split; [reflexivity|exact H3]].
    + right. exists x. split; [exact N|split; reflexivity].
Qed.

Lemma load_all_panic {S} (next : reader S) s rs e fuel : yields next s rs e -> length rs < fuel ->
  (load_all fuel next s = Panic <->
   exists rs1 r rs2, rs = rs1 ++ r :: rs2 /\ Forall decodes rs1 /\ decode (timed r) = Panic).
Proof.
  intros Y L. unfold load_all. rewrite (load_all_expected _ _ _ _ Y _ _ _ L).
  rewrite (expected_stop _ _ _ _ Panic Panic).
  - split; [intros [H|(_ & H & _)]; [exact H|discriminate H]|]. intros H. left. exact H.
  - left. split; reflexivity.
Qed.
