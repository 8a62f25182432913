From Coq Require Import List NArith Arith Bool Lia.
From Verif Require Import GoBase GoBaseFacts Inetdiag Netlink SpecNetlink SpecCompare RecordFacts CompareFacts SetCounters SpecCounters.
Import ListNotations.

Lemma replace_length t s l : length (replace t s l) = length l.
Proof. revert t; induction l as [|x l IH]; intros [|t]; cbn; auto. Qed.
Lemma replace_nth t s l u : nth u (replace t s l) None = if (u =? t)%nat && (t <? length l)%nat then s else nth u l None.
Proof.
  revert t u; induction l as [|x l IH]; intros [|t] [|u]; cbn [replace nth length].
  all: try reflexivity.
  - rewrite andb_false_r. reflexivity.
  - rewrite IH. reflexivity.
Qed.

Lemma store_length o v l : o + length v <= length l -> length (store o v l) = length l.
Proof. intros H. unfold store. rewrite !app_length, firstn_length, skipn_length. lia. Qed.
Lemma sub_store_here o v l : o + length v <= length l -> sub o (length v) (store o v l) = v.
Proof.
  intros H. unfold sub, store. rewrite skipn_app, firstn_length, skipn_all2 by (rewrite firstn_length; lia).
  replace (o - Nat.min o (length l)) with 0 by lia. cbn [app skipn].
  rewrite firstn_app, Nat.sub_diag, firstn_all. apply app_nil_r.
Qed.
Lemma sub_store_before o v l p n : o <= length l -> p + n <= o -> sub p n (store o v l) = sub p n l.
Proof.
  intros H H1. unfold sub, store. rewrite skipn_app, firstn_app, skipn_firstn_comm, firstn_firstn, firstn_length, skipn_length, firstn_length.
  replace (n - _) with 0 by lia. rewrite firstn_O, app_nil_r. f_equal. lia.
Qed.
Lemma nth_store o v l k d : o + length v <= length l -> (k < o \/ o + length v <= k) -> nth k (store o v l) d = nth k l d.
Proof.
  intros H H1. unfold store. destruct H1 as [H1|H1].
  - rewrite app_nth1 by (rewrite firstn_length; lia). rewrite <- (firstn_skipn o l) at 2.
    rewrite app_nth1 by (rewrite firstn_length; lia). reflexivity.
  - rewrite app_nth2 by (rewrite firstn_length; lia). rewrite firstn_length.
    replace (Nat.min o (length l)) with o by lia. rewrite app_nth2 by lia.
    rewrite <- (firstn_skipn (o + length v) l) at 2. rewrite app_nth2 by (rewrite firstn_length; lia).
    rewrite firstn_length. f_equal. lia.
Qed.

Section Set_.
Variable off : nat.

Lemma set_outside pm x : set_counter off false pm x = Panic.
Proof. reflexivity. Qed.
Lemma set_none pm x : (forall i, slot 2 pm = Some i -> length i < off + 8) -> set_counter off true pm x = Ret (0%N, pm).
Proof.
  unfold slot, set_counter. change INET_DIAG_INFO with 2. intros H. cbn [negb].
  destruct (Nat.leb_spec (length (ar_attrs pm)) 2) as [L|L]; [reflexivity|].
  destruct (nth 2 (ar_attrs pm) None) as [raw|]; [|reflexivity].
  specialize (H _ eq_refl). rewrite (proj2 (Nat.ltb_lt _ _)) by lia. reflexivity.
Qed.
Lemma set_some pm x i : slot 2 pm = Some i -> off + 8 <= length i -> exists r,
  set_counter off true pm x = Ret (le (at_ off 8 i), r) /\
  ar_time r = ar_time pm /\ ar_raw r = ar_raw pm /\ ar_meta r = ar_meta pm /\
  length (ar_attrs r) = length (ar_attrs pm) /\
  (forall t, t <> 2 -> nth t (ar_attrs r) None = nth t (ar_attrs pm) None) /\
  (exists s, nth 2 (ar_attrs pm) None = Some s /\ nth 2 (ar_attrs r) None = Some (poke off x s)) /\
  slot 2 r = Some (store off (le_enc 8 x) i).
Proof.
  unfold slot at 1, set_counter. change INET_DIAG_INFO with 2. intros H L. cbn [negb].
  destruct (nth 2 (ar_attrs pm) None) as [raw|] eqn:E; [|discriminate]. injection H as <-.
  assert (2 < length (ar_attrs pm)) as L2.
  { apply Nat.nle_gt. intros K. rewrite nth_overflow in E by exact K. discriminate. }
  rewrite (proj2 (Nat.leb_gt _ _)) by lia. rewrite (proj2 (Nat.ltb_ge _ _)) by lia.
  assert (N2 : nth 2 (replace 2 (Some (poke off x raw)) (ar_attrs pm)) None = Some (poke off x raw)).
  { rewrite replace_nth, (proj2 (Nat.ltb_lt _ _)) by lia. reflexivity. }
  eexists. split; [reflexivity|]. cbn [ar_time ar_raw ar_meta ar_attrs].
  repeat split.
  - apply replace_length.
  - intros t Ht. rewrite replace_nth, (proj2 (Nat.eqb_neq _ _)) by exact Ht. reflexivity.
  - exists raw. split; [reflexivity|exact N2].
  - unfold slot. cbn [ar_attrs]. rewrite N2. reflexivity.
Qed.
End Set_.

Lemma le_at_here o x i : o + 8 <= length i -> (x < two64)%N -> le (at_ o 8 (store o (le_enc 8 x) i)) = x.
Proof.
  intros H Hx. change (at_ o 8) with (sub o 8).
  replace 8 with (length (le_enc 8 x)) at 1 by apply le_enc_length.
  rewrite sub_store_here by (rewrite le_enc_length; exact H). rewrite le_le_enc. apply N.mod_small. exact Hx.
Qed.

Lemma received_then_stats pm x i : slot 2 pm = Some i -> 208 <= length i -> (x < two64)%N -> exists r,
  set_bytes_received true pm x = Ret (snd (get_stats pm), r) /\ get_stats r = (fst (get_stats pm), x).
Proof.
  intros H L Hx. destruct (set_some bytesReceivedOffset pm x i H) as (r & E & _ & _ & _ & _ & _ & _ & S2); [change bytesReceivedOffset with 128; lia|].
  exists r. rewrite (get_stats_some pm i H L). cbn [fst snd]. split; [exact E|].
  change bytesReceivedOffset with 128 in S2.
  rewrite (get_stats_some r _ S2) by (rewrite store_length; rewrite ?le_enc_length; lia).
  rewrite le_at_here by (assumption || lia). f_equal. f_equal. change (at_ 200 8) with (sub 200 8).
  apply sub_store_after; rewrite le_enc_length; lia.
Qed.
Lemma sent_then_stats pm x i : slot 2 pm = Some i -> 208 <= length i -> (x < two64)%N -> exists r,
  set_bytes_sent true pm x = Ret (fst (get_stats pm), r) /\ get_stats r = (x, snd (get_stats pm)).
Proof.
  intros H L Hx. destruct (set_some bytesSentOffset pm x i H) as (r & E & _ & _ & _ & _ & _ & _ & S2); [change bytesSentOffset with 200; lia|].
  exists r. rewrite (get_stats_some pm i H L). cbn [fst snd]. split; [exact E|].
  change bytesSentOffset with 200 in S2.
  rewrite (get_stats_some r _ S2) by (rewrite store_length; rewrite ?le_enc_length; lia).
  rewrite le_at_here by (assumption || lia). f_equal. f_equal. change (at_ 128 8) with (sub 128 8).
  apply sub_store_before; lia.
Qed.

(** The eight bytes at [off] are the new value, every other byte is as before. *)
Lemma bytes_kept off x i k d : off + 8 <= length i -> k < off \/ off + 8 <= k ->
  nth k (store off (le_enc 8 x) i) d = nth k i d.
Proof. intros H K. apply nth_store; rewrite ?le_enc_length; assumption. Qed.

(** ** What Compare says *)
Lemma slot_ext r pm t : nth t (ar_attrs r) None = nth t (ar_attrs pm) None -> slot t r = slot t pm.
Proof. intros E. unfold slot. rewrite E. reflexivity. Qed.

Lemma received_seen pm x p r : comparable pm -> (x < two64)%N ->
  set_bytes_received true pm x = Ret (p, r) -> carries_info pm ->
  compare r (Some pm) = Ret (if (x =? p)%N then NoMajorChange else StateOrCounterChange).
Proof.
  intros C Hx E (_ & i & Hi & L).
  destruct (set_some bytesReceivedOffset pm x i Hi) as (r' & E' & _ & Hr & _ & La & Ho & _ & S2); [change bytesReceivedOffset with 128; lia|].
  change bytesReceivedOffset with 128 in *.
  unfold set_bytes_received in E. change bytesReceivedOffset with 128 in E. rewrite E' in E. injection E as <- <-.
  assert (Hh : header r' = header pm) by (unfold header; rewrite Hr; reflexivity).
  assert (C' : comparable r').
  { destruct C as [C1 C2]. split; [rewrite Hh; exact C1|]. intros j Hj. rewrite S2 in Hj. assert (j = _) as -> by (symmetry; injection Hj; exact id).
    rewrite store_length; cbn [length]; lia. }
  apply compare_iff; [exact C|exact C'|].
  assert (B : info_before_last i = info_before_last (store 128 (le_enc 8 x) i)).
  { symmetry. apply sub_store_before; lia. }
  destruct (N.eqb_spec x (le (at_ 128 8 i))) as [->|Ne].
  - apply v_same. assert (store 128 (le_enc 8 (le (at_ 128 8 i))) i = i) as St.
    { assert (length (at_ 128 8 i) = 8) as L8 by (unfold at_; rewrite firstn_length, skipn_length; lia).
      assert (le_enc 8 (le (at_ 128 8 i)) = at_ 128 8 i) as -> by (rewrite <- L8 at 1; apply le_enc_le).
      unfold store. rewrite L8.
      rewrite <- skipn_skipn_add. unfold at_.
      rewrite (firstn_skipn 8). apply (firstn_skipn 128). }
    rewrite St in S2. repeat split.
    + rewrite Hh. reflexivity.
    + exists i, i. repeat split; assumption.
    + symmetry. exact La.
    + intros t Ht. symmetry. apply slot_ext, Ho, Ht.
  - apply (v_counter _ _ i (store 128 (le_enc 8 x) i)); [rewrite Hh; reflexivity|exact Hi|exact S2|].
    intros [_ K]. apply Ne. rewrite <- (le_at_here 128 x i) by (assumption || lia). f_equal.
    apply (f_equal (fun b => firstn 8 (skipn 68 b))) in K. unfold info_counters, at_ in K |- *.
    rewrite !skipn_firstn_comm, !firstn_firstn, !skipn_skipn_add in K. symmetry. exact K.
Qed.
Lemma sent_unseen pm x p r : comparable pm -> (x < two64)%N ->
  set_bytes_sent true pm x = Ret (p, r) -> carries_info pm -> compare r (Some pm) = Ret NoMajorChange.
Proof.
  intros C Hx E (Hc & i & Hi & L).
  destruct (le_lt_dec 208 (length i)) as [L8|L8].
  - destruct (set_some bytesSentOffset pm x i Hi) as (r' & E' & _ & Hr & _ & La & Ho & _ & S2); [change bytesSentOffset with 200; lia|].
    change bytesSentOffset with 200 in *.
    unfold set_bytes_sent in E. change bytesSentOffset with 200 in E. rewrite E' in E. injection E as <- <-.
    assert (Hh : header r' = header pm) by (unfold header; rewrite Hr; reflexivity).
    assert (C' : comparable r').
    { destruct C as [C1 C2]. split; [rewrite Hh; exact C1|]. intros j Hj. rewrite S2 in Hj. assert (j = _) as -> by (symmetry; injection Hj; exact id).
      rewrite store_length; cbn [length]; lia. }
    apply compare_iff; [exact C|exact C'|]. apply v_same. repeat split.
    + rewrite Hh. reflexivity.
    + exists i, (store 200 (le_enc 8 x) i). repeat split; try assumption; symmetry; apply sub_store_before; lia.
    + symmetry. exact La.
    + intros t Ht. symmetry. apply slot_ext, Ho, Ht.
  - unfold set_bytes_sent in E. rewrite (set_none bytesSentOffset) in E.
    + injection E as <- <-. apply compare_refl. split; [exact Hc|]. exists i. split; assumption.
    + intros j Hj. rewrite Hi in Hj. injection Hj as <-. change bytesSentOffset with 200. lia.
Qed.

Lemma set_changes off pm x i : slot 2 pm = Some i -> off + 8 <= length i -> (x < two64)%N -> exists r,
  set_counter off true pm x = Ret (le (at_ off 8 i), r) /\ changed_only off x pm r.
Proof.
  intros H L Hx. destruct (set_some off pm x i H L) as (r & E & T & R & M & La & Ho & (s & Hs & Hs') & _).
  assert (vis s = i) as <- by (unfold slot in H; rewrite Hs in H; injection H; exact id).
  exists r. split; [exact E|]. unfold changed_only. do 5 (split; [assumption|]).
  exists s, (poke off x s). split; [exact Hs|]. split; [exact Hs'|]. cbn [poke vis spare].
  split; [reflexivity|]. split; [apply store_length; rewrite le_enc_length; exact L|].
  split; [apply le_at_here; assumption|]. intros k d K. apply bytes_kept; assumption.
Qed.
