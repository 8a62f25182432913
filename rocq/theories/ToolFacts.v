(** Lemmas for P_Tool.v: rows of snapshots that show a message. *)
From Coq Require Import Strings.String.
From stdpp Require Import gmap.
From Coq Require Import NArith ZArith Lia.
From Verif Require Import GoBase GoBaseFacts Inetdiag Netlink SpecNetlink SpecAddrText Snapshot SpecSnapshot SpecCsv SpecDecode SpecTable TableFacts SpecTool
  SpecSystem SpecPipeline.
Local Open Scope list_scope.

Lemma column s row i n P : shown_in s row -> nth_error expected_columns i = Some (n, P) -> actual_name n = n -> cell row n (P s).
Proof.
  intros S Hi E. destruct (Forall2_nth _ _ _ S i _ Hi) as (c & Hc & H). exists i, c. split; [|split; [exact Hc|exact H]].
  rewrite <- E at 1. exact (map_nth_error (fun col => str (actual_name (fst col))) i expected_columns Hi).
Qed.
Lemma cell_impl row n (P Q : bytes -> Prop) : (forall c, P c -> Q c) -> cell row n P -> cell row n Q.
Proof. intros H (i & c & A & B & C). exists i, c. auto. Qed.

Lemma number_nth (a b : bytes) w : forall o, (forall i, o <= i < o + w -> nth i a x00 = nth i b x00) -> number_at a o w = number_at b o w.
Proof. induction w as [|w IH]; intros o H; [reflexivity|]. cbn [number_at]. rewrite (IH (S o)) by (intros i Hi; apply H; lia). unfold byte_at. rewrite (H o) by lia. reflexivity. Qed.
Lemma bytes_nth (a b : bytes) o w : (forall i, o <= i < o + w -> nth i a x00 = nth i b x00) -> bytes_at a o w = bytes_at b o w.
Proof. intros H. unfold bytes_at. apply map_ext_in. intros i Hi. apply in_seq in Hi. apply H. lia. Qed.
Lemma nth_firstn_lt (l : bytes) n i d : i < n -> nth i (firstn n l) d = nth i l d.
Proof. revert n i. induction l as [|a l IH]; intros [|n] [|i] H; try reflexivity; try lia. cbn. apply IH. lia. Qed.
Lemma nth_skip (l : bytes) o i d : nth i (skipn o l) d = nth (o + i) l d.
Proof. revert o. induction l as [|a l IH]; intros [|o]; try reflexivity; [destruct i; reflexivity|]. cbn [skipn Nat.add nth]. apply IH. Qed.
Lemma bytes_firstn (l : bytes) o w : o + w <= length l -> bytes_at l o w = firstn w (skipn o l).
Proof.
  intros H. apply (nth_ext _ _ x00 x00).
  - unfold bytes_at. rewrite map_length, seq_length, firstn_length, skipn_length. lia.
  - intros i Hi. unfold bytes_at in *. rewrite map_length, seq_length in Hi.
    rewrite (nth_indep _ x00 (nth 0 l x00)) by (rewrite map_length, seq_length; exact Hi).
    change (nth 0 l x00) with ((fun i => nth i l x00) 0). rewrite map_nth, seq_nth by exact Hi. rewrite nth_firstn_lt by exact Hi. rewrite nth_skip. reflexivity.
Qed.
Lemma bytes_mid (p a r : bytes) o w : length p = o -> length a = w -> bytes_at (p ++ a ++ r) o w = a.
Proof.
  intros <- <-. rewrite bytes_firstn by (rewrite !app_length; lia). rewrite drop_app. apply take_app.
Qed.
Lemma at_bytes (d : bytes) o w : o + w <= 72 -> 72 <= length d -> at_ o w (firstn 72 d) = bytes_at d o w.
Proof.
  intros H L. unfold at_. rewrite <- bytes_firstn by (rewrite firstn_length; lia). apply bytes_nth. intros i Hi. apply nth_firstn_lt. lia.
Qed.
Lemma at_length (d : bytes) o w : o + w <= length d -> length (at_ o w d) = w.
Proof. intros H. unfold at_. rewrite firstn_length, skipn_length. lia. Qed.

(** The header with the addresses hidden *)
Lemma hidden_fields anon d h : (forall x, length (anon x) = length x) -> hidden_header anon (firstn 72 d) = Some h ->
  72 <= length d /\ In (number_at d 0 1) [2; 10]%N /\
  (forall i, i < 8 \/ 40 <= i < 72 -> nth i h x00 = nth i d x00) /\
  bytes_at h 8 16 = shown_address anon d 8 /\ bytes_at h 24 16 = shown_address anon d 24.
Proof.
  intros Hl H. unfold hidden_header in H. rewrite firstn_length in H. destruct (Nat.ltb_spec (Nat.min 72 (length d)) 72) as [|L]; [discriminate H|].
  assert (Ld : 72 <= length d) by lia. assert (F : length (firstn 72 d) = 72) by (rewrite firstn_length; lia). split; [exact Ld|].
  assert (Fam : hdr_family (firstn 72 d) = number_at (firstn 72 d) 0 1).
  { unfold hdr_family, at_. destruct d as [|b d]; [cbn in Ld; lia|]. reflexivity. }
  assert (Fam' : number_at (firstn 72 d) 0 1 = number_at d 0 1) by (apply number_nth; intros i Hi; apply nth_firstn_lt; lia).
  assert (N : forall i, i < 72 -> nth i (firstn 72 d) x00 = nth i d x00) by (intros i Hi; apply nth_firstn_lt; lia).
  assert (P8 : length (at_ 0 8 (firstn 72 d)) = 8) by (apply at_length; lia).
  assert (N8 : forall i r, i < 8 -> nth i (at_ 0 8 (firstn 72 d) ++ r) x00 = nth i d x00).
  { intros i r Hi. rewrite app_nth1 by lia. unfold at_. rewrite nth_firstn_lt by lia. rewrite nth_skip. apply N. lia. }
  rewrite Fam in *. unfold shown_address. rewrite <- Fam'.
  destruct (N.eqb_spec (number_at (firstn 72 d) 0 1) 10) as [E10|_].
  - injection H as <-. split; [rewrite E10; cbn; auto|].
    assert (A1 : length (anon (at_ 8 16 (firstn 72 d))) = 16) by (rewrite Hl; apply at_length; lia).
    assert (A2 : length (anon (at_ 24 16 (firstn 72 d))) = 16) by (rewrite Hl; apply at_length; lia).
    split; [|split].
    + intros i [Hi|Hi]; [apply N8; exact Hi|]. rewrite !app_nth2 by (rewrite ?P8, ?A1, ?A2; lia). rewrite P8, A1, A2. rewrite nth_skip.
      replace (40 + (i - 8 - 16 - 16)) with i by lia. apply N. lia.
    + rewrite bytes_mid by assumption. f_equal. apply at_bytes; lia.
    + rewrite app_assoc. rewrite bytes_mid by (rewrite ?app_length; lia). f_equal. apply at_bytes; lia.
  - destruct (N.eqb_spec (number_at (firstn 72 d) 0 1) 2) as [E2|_]; [|discriminate H]. injection H as <-. split; [rewrite E2; cbn; auto|].
    assert (A1 : length (anon (at_ 8 4 (firstn 72 d))) = 4) by (rewrite Hl; apply at_length; lia).
    assert (A2 : length (anon (at_ 24 4 (firstn 72 d))) = 4) by (rewrite Hl; apply at_length; lia).
    assert (A3 : length (at_ 12 12 (firstn 72 d)) = 12) by (apply at_length; lia).
    split; [|split].
    + intros i [Hi|Hi]; [apply N8; exact Hi|]. rewrite !app_nth2 by (rewrite ?P8, ?A1, ?A2, ?A3; lia). rewrite P8, A1, A2, A3. rewrite nth_skip.
      replace (28 + (i - 8 - 4 - 12 - 4)) with i by lia. apply N. lia.
    + rewrite (app_assoc (anon _) (at_ 12 12 _)). rewrite bytes_mid by (rewrite ?app_length; lia). rewrite !at_bytes by lia. reflexivity.
    + rewrite <- (firstn_skipn 12 (skipn 28 (firstn 72 d))). fold (at_ 28 12 (firstn 72 d)).
      assert (A4 : length (at_ 28 12 (firstn 72 d)) = 12) by (apply at_length; lia).
      rewrite (app_assoc (anon (at_ 24 4 _))). rewrite !(app_assoc (at_ 0 8 _)), (app_assoc _ (at_ 12 12 _)).
      rewrite bytes_mid by (rewrite ?app_length; lia). rewrite !at_bytes by lia. reflexivity.
Qed.

Lemma last_or {A} (r : archival) (l : list (N * bytes)) k (absent : A) (present : bytes -> A) (P : A -> Prop) :
  (forall v, attr r k = Some v <-> last_of (N.of_nat k) l v) -> P (attr_or r k absent present) -> of_last l k (fun v => P (present v)) (P absent).
Proof.
  intros H HP. unfold attr_or in HP. destruct (attr r k) as [v|] eqn:E; [left; exists v; split; [apply H; reflexivity|exact HP]|].
  right. split; [|exact HP]. intros v Hv. apply H in Hv. discriminate Hv.
Qed.

Lemma big_bytes (h d : bytes) o w : (forall i, o <= i < o + w -> nth i h x00 = nth i d x00) -> big (bytes_at h o w) = big (bytes_at d o w).
Proof. intros H. f_equal. apply bytes_nth, H. Qed.
Lemma little_number (d : bytes) o w : little (bytes_at d o w) = number_at d o w.
Proof. revert o. induction w as [|w IH]; intros o; [reflexivity|]. cbn [number_at]. unfold bytes_at, little in *. cbn [seq map fold_right]. rewrite IH. reflexivity. Qed.

Lemma row_ok anon t m s row : (forall x, length (anon x) = length x) -> shows anon t m s -> shown_in s row -> row_of anon t m row.
Proof.
  intros Hl (h & l & r & Hh & Hw & Et & Er & At & Dd & Ob & Np) S. destruct (hidden_fields anon _ h Hl Hh) as (Ld & Fam & Nh & Ssrc & Sdst).
  pose proof Dd as (D0 & D1 & D2 & D3 & D4 & D5 & D6 & D7 & D8 & D9 & D10 & D11 & D12 & D13 & D14).
  rewrite Er in D1. cbn [option_map] in D1.
  assert (Hd : forall i n (P : idm -> bytes -> Prop), nth_error expected_columns i = Some (n, header_cell P) -> actual_name n = n -> cell row n (P (header_at h))).
  { intros i n P Hi En. pose proof (column s row i n _ S Hi En) as C. unfold header_cell in C. rewrite D1 in C. exact C. }
  assert (Nu : forall o w, o + w <= 8 \/ (40 <= o /\ o + w <= 72) -> number_at h o w = number_at (vis (m_data m)) o w) by (intros o w Ho; apply number_nth; intros i Hi; apply Nh; lia).
  assert (By : forall o w, o + w <= 8 \/ (40 <= o /\ o + w <= 72) -> big (bytes_at h o w) = big (bytes_at (vis (m_data m)) o w)) by (intros o w Ho; apply big_bytes; intros i Hi; apply Nh; lia).
  constructor.
  - unfold actual_header. rewrite map_length. symmetry. exact (Forall2_length _ _ _ S).
  - exact Fam.
  - apply (cell_impl row _ (fun c => stamp c (sn_time s))); [intros c; rewrite D0, Et; exact (fun x => x)|]. exact (column s row 0 "Timestamp" _ S eq_refl eq_refl).
  - intros n o w I. cbn [host_numbers In] in I.
    destruct I as [I|[I|[I|[I|[I|[I|[I|[I|[I|[]]]]]]]]]]; injection I as <- <- <-; rewrite <- Nu by lia;
      [exact (Hd 3 _ _ eq_refl eq_refl)|exact (Hd 4 _ _ eq_refl eq_refl)|exact (Hd 5 _ _ eq_refl eq_refl)|exact (Hd 6 _ _ eq_refl eq_refl)|exact (Hd 13 _ _ eq_refl eq_refl)
      |exact (Hd 14 _ _ eq_refl eq_refl)|exact (Hd 15 _ _ eq_refl eq_refl)|exact (Hd 16 _ _ eq_refl eq_refl)|exact (Hd 17 _ _ eq_refl eq_refl)].
  - intros n o w I. cbn [network_numbers In] in I. destruct I as [I|[I|[I|[]]]]; injection I as <- <- <-; rewrite <- By by lia;
      [exact (Hd 7 _ _ eq_refl eq_refl)|exact (Hd 8 _ _ eq_refl eq_refl)|exact (Hd 11 _ _ eq_refl eq_refl)].
  - rewrite <- Ssrc. exact (Hd 9 _ _ eq_refl eq_refl).
  - rewrite <- Sdst. exact (Hd 10 _ _ eq_refl eq_refl).
  - rewrite <- Nu by lia. rewrite <- little_number. exact (Hd 12 _ _ eq_refl eq_refl).
  - exists l. split; [exact Hw|]. split.
    { apply (cell_impl row _ (fun c => numeral c (sn_observed s))); [intros c Hc; exists (sn_observed s); auto|]. exact (column s row 1 "Observed" _ S eq_refl eq_refl). }
    split. { apply (cell_impl row _ (fun c => number_or_blank (sn_notparsed s) c)); [intros c Hc; exists (sn_notparsed s); auto|]. exact (column s row 2 "NotFullyParsed" _ S eq_refl eq_refl). }
    assert (Al : forall k, k <= 38 -> forall v, attr r k = Some v <-> last_of (N.of_nat k) l v) by (intros k Hk v; apply At, Hk).
    split. { apply (cell_impl row _ (fun c => c = sn_cong s)); [intros c Hc; rewrite D5 in Hc; exact (last_or r l 4 _ _ (fun x => c = x) (Al 4 ltac:(lia)) Hc)|].
      exact (column s row 18 "CongestionAlgorithm" _ S eq_refl eq_refl). }
    assert (Ob' : forall i n (sel : snapshot -> N) k f, nth_error expected_columns i = Some (n, fun s c => number_or_blank (sel s) c) -> actual_name n = n -> k <= 38 ->
      sel s = attr_or r k 0%N f -> cell row n (fun c => of_last l k (fun v => number_or_blank (f v) c) (number_or_blank 0 c))).
    { intros i n sel k f Hi En Hk E. apply (cell_impl row _ (fun c => number_or_blank (sel s) c)); [|exact (column s row i n _ S Hi En)].
      intros c Hc. rewrite E in Hc. exact (last_or r l k 0%N f (fun x => number_or_blank x c) (Al k Hk) Hc). }
    split. { intros n k I. cbn [one_byte_columns In] in I. destruct I as [I|[I|[I|[I|[I|[]]]]]]; injection I as <- <-.
      - exact (Ob' 19 _ sn_tos 5 (fun raw => byte_at raw 0) eq_refl eq_refl ltac:(lia) D6).
      - exact (Ob' 20 _ sn_tclass 6 (fun raw => byte_at raw 0) eq_refl eq_refl ltac:(lia) D7).
      - exact (Ob' 21 _ sn_classid 17 (fun raw => byte_at raw 0) eq_refl eq_refl ltac:(lia) D14).
      - exact (Ob' 22 _ sn_shutdown 8 (fun raw => byte_at raw 0) eq_refl eq_refl ltac:(lia) D9).
      - exact (Ob' 23 _ sn_protocol 10 (fun raw => byte_at raw 0) eq_refl eq_refl ltac:(lia) D11). }
    split. { exact (Ob' 24 _ sn_mark 15 (fun raw => if length raw =? 4 then number_at raw 0 4 else 0%N) eq_refl eq_refl ltac:(lia) D12). }
    intros pre k tb f Hp Hf. destruct (kernel_cell r s row pre k tb f Dd S Hp Hf) as (i & c & A & B & C). exists i, c. split; [exact A|]. split; [exact B|].
    assert (Hk : k <= 38) by (cbn [kernel_structures In] in Hp; destruct Hp as [Hp|[Hp|[Hp|[Hp|[Hp|[Hp|[]]]]]]]; injection Hp as <- <- <-; lia).
    destruct (attr r k) as [v|] eqn:E; [left; exists v; split; [apply Al; [exact Hk|exact E]|exact C]|right; split; [|exact C]].
    intros v Hv. apply (Al k Hk) in Hv. congruence.
Qed.
