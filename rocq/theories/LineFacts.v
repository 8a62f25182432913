(** Lines of texts, and UTF-8. *)
From Coq Require Import List NArith ZArith Bool Lia.
From Verif Require Import GoBase GoBaseFacts SpecJson.
From Verif Require Reader SpecReader ReaderFacts.
Import ListNotations.
Local Open Scope list_scope.

(** ** Lines *)
Lemma lines_line l r : ~ In x0a l -> SpecReader.lines (l ++ x0a :: r) = (l, true) :: SpecReader.lines r.
Proof.
  intros H. unfold SpecReader.lines at 1.
  assert (G : forall cur, SpecReader.lines_from cur (l ++ x0a :: r) = (cur ++ l, true) :: SpecReader.lines r).
  { induction l as [|x l IH]; intros cur; cbn [app SpecReader.lines_from].
    - rewrite app_nil_r. reflexivity.
    - destruct (Byte.eqb x x0a) eqn:E; [apply byte_eqb_eq in E; subst x; contradiction H; left; reflexivity|].
      rewrite IH by (intros K; apply H; right; exact K). rewrite <- app_assoc. reflexivity. }
  exact (G []).
Qed.
Lemma lines_concat ls : Forall (fun l => ~ In x0a l) ls ->
  SpecReader.lines (concat (map (fun l => l ++ [x0a]) ls)) = map (fun l => (l, true)) ls.
Proof.
  induction 1 as [|l ls H _ IH]; [reflexivity|]. cbn [map concat]. rewrite <- app_assoc. cbn [app]. rewrite lines_line by exact H.
  rewrite IH. reflexivity.
Qed.
Lemma no_cr l : ~ In x0d l -> SpecReader.without_cr l = l.
Proof.
  intros H. unfold SpecReader.without_cr. destruct (Byte.eqb (List.last l x00) x0d) eqn:E; [|reflexivity].
  apply byte_eqb_eq in E. destruct (exists_last (l := l)) as (l' & a & ->); [intros ->; discriminate E|].
  rewrite last_last in E. subst a. contradiction H. apply in_or_app. right. left. reflexivity.
Qed.

(** ** UTF-8 *)
Lemma utf8_app a b : utf8 a -> utf8 b -> utf8 (a ++ b).
Proof.
  intros (ra & Ha & ->) (rb & Hb & ->). exists (ra ++ rb). split; [apply Forall_app; split; assumption|]. rewrite map_app, concat_app. reflexivity.
Qed.
Lemma utf8_ascii s : Forall (fun b => (bval b < 128)%N) s -> utf8 s.
Proof.
  intros H. exists (map bval s). split.
  - apply Forall_map. eapply Forall_impl; [|exact H]. intros b Hb. cbv beta in Hb. left. change (bval b < 55296)%N. lia.
  - induction H as [|b s Hb _ IH]; [reflexivity|]. cbn [map concat]. rewrite <- IH. unfold utf8_of at 1.
    destruct (N.ltb_spec (bval b) 128); [|lia]. cbn [app]. f_equal. apply bval_inj. rewrite bval_byte_of, N.mod_small by lia. reflexivity.
Qed.
Lemma lines_part l : l <> [] -> ~ In x0a l -> SpecReader.lines l = [(l, false)].
Proof.
  intros Ne H. rewrite ReaderFacts.lines_cut. destruct (Reader.cut_newline l) as [[a b]|] eqn:E.
  - apply ReaderFacts.cut_some in E. subst l. contradiction H. apply in_or_app. right. left. reflexivity.
  - destruct l; [contradiction|reflexivity].
Qed.
Lemma lines_app ls p : Forall (fun l => ~ In x0a l) ls ->
  SpecReader.lines (concat (map (fun l => l ++ [x0a]) ls) ++ p) = map (fun l => (l, true)) ls ++ SpecReader.lines p.
Proof.
  induction 1 as [|l ls H _ IH]; [reflexivity|]. cbn [map concat]. rewrite <- !app_assoc. cbn [app]. rewrite lines_line by exact H.
  rewrite IH. reflexivity.
Qed.
