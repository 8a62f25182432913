(** How long the line of a record can be, in terms of the netlink message it
    comes from. *)
From Coq Require Import Strings.String List NArith ZArith Bool Arith Lia.
From Coq Require Import ZifyBool ZifyNat ZifyN.
From Verif Require Import GoBase GoBaseFacts Layout Inetdiag Netlink SpecNetlink NetlinkFacts Base64 Rfc3339 Json Archive SpecArchive LengthFacts.
Import ListNotations.
Local Open Scope list_scope.

Lemma sum_cons x l : list_sum (x :: l) = x + list_sum l.
Proof. reflexivity. Qed.

(** ** The values in the table of a record *)
Definition total (l : list (option gslice)) : nat := list_sum (map len_opt l).
Definition attr_total (l : list rtattr) : nat := list_sum (map (fun a => length (vis (rta_value a))) l).

Lemma total_repeat n : total (repeat None n) = 0.
Proof. induction n as [|n IH]; [reflexivity|exact IH]. Qed.
Lemma total_cons a l : total (a :: l) = len_opt a + total l.
Proof. reflexivity. Qed.
Lemma total_set i v l : total (set_nth i (Some v) l) <= total l + length (vis v).
Proof.
  revert i. induction l as [|a l IH]; intros [|i]; cbn [set_nth]; [lia|lia| |]; rewrite !total_cons.
  - cbn [len_opt]. lia.
  - specialize (IH i). lia.
Qed.
Lemma length_set_nth {A} i (v : A) l : length (set_nth i v l) = length l.
Proof. revert i. induction l as [|a l IH]; intros [|i]; cbn [set_nth length]; [reflexivity..|]. f_equal. apply IH. Qed.
Lemma fill_total mx attrs : total (fill_slots mx attrs) <= attr_total attrs /\ length (fill_slots mx attrs) = N.to_nat mx + 1.
Proof.
  unfold fill_slots. set (f := fun slots a => _).
  assert (G : forall s, total (fold_left f attrs s) <= total s + attr_total attrs /\ length (fold_left f attrs s) = length s).
  { induction attrs as [|a attrs IH]; intros s; [change (attr_total []) with 0; cbn [fold_left]; lia|]. cbn [fold_left]. destruct (IH (f s a)) as [A B].
    assert (T : total (f s a) <= total s + length (vis (rta_value a))) by (unfold f; destruct (mx <? rta_type a)%N; [lia|apply total_set]).
    assert (L : length (f s a) = length s) by (unfold f; destruct (mx <? rta_type a)%N; [reflexivity|apply length_set_nth]).
    unfold attr_total in *. cbn [map]. rewrite !sum_cons. lia. }
  destruct (G (repeat None (N.to_nat mx + 1))) as [A B]. rewrite total_repeat in A. rewrite repeat_length in B. lia.
Qed.
Lemma wire_total l b : wire_list l b -> list_sum (map (fun x => length (snd x)) l) <= length b.
Proof.
  induction 1 as [|ty v pad l b Ho Hp Hl IH]; [cbn; lia|]. cbn [map snd]. rewrite !sum_cons.
  unfold wire_attr. rewrite !app_length. lia.
Qed.

Lemma record_size msg ex ar : make_archival_record msg ex = Ret (Some ar) ->
  exists raw, ar_raw ar = Some raw /\ length raw = 72 /\ length (ar_attrs ar) <= 39 /\
    72 + total (ar_attrs ar) <= length (vis (m_data msg)) /\ ar_meta ar = None.
Proof.
  unfold make_archival_record. destruct (negb _); [discriminate|]. unfold split_inet_diag_msg.
  change idm_size with 72. destruct (Nat.ltb_spec (length (vis (m_data msg))) 72) as [L|L]; [discriminate|].
  set (x := match ex with None => _ | Some e => _ end). destruct x as [[]| | |]; cbn [bind]; try discriminate.
  set (ab := mkslice _ _). destruct (parse_route_attr ab) as [attrs| | |] eqn:P; cbn [bind]; try discriminate.
  intros E. injection E as E. rewrite <- E.
  clear E. cbn [ar_raw ar_attrs ar_meta]. exists (firstn 72 (vis (m_data msg))). split; [reflexivity|]. split; [apply firstn_length_le, L|].
  destruct (fill_total (cap_attr_type (max_attr_type attrs)) attrs) as [A B].
  assert (C : (cap_attr_type (max_attr_type attrs) <= 38)%N).
  { unfold cap_attr_type. change (2 * N.of_nat INET_DIAG_MAX)%N with 38%N. destruct (N.ltb_spec 38 (max_attr_type attrs)); lia. }
  split; [lia|]. split; [|reflexivity].
  assert (W : wire_area (map ty_val attrs) (skipn 72 (vis (m_data msg)))).
  { apply (parse_route_attr_ret_iff _ (spare (m_data msg))). exists attrs. split; [exact P|reflexivity]. }
  destruct W as (p & t & Eb & Wl & _). apply wire_total in Wl. rewrite map_map in Wl.
  change (attr_total attrs <= length p) in Wl.
  apply (f_equal (@length byte)) in Eb. rewrite skipn_length, app_length in Eb. lia.
Qed.

(** ** Lines *)
Lemma join_length sep l : length (join sep l) <= list_sum (map (@length byte) l) + length l.
Proof.
  induction l as [|a [|b l] IH]; [cbn; lia|cbn; lia|].
  change (join sep (a :: b :: l)) with (a ++ sep :: join sep (b :: l)). rewrite app_length. cbn [length map] in *.
  rewrite !sum_cons in *. lia.
Qed.
Lemma slot_text a : 3 * length (render (bytes_json (option_map vis a))) <= 4 * len_opt a + 14.
Proof.
  destruct a as [s|]; cbn [option_map bytes_json render len_opt]; [|cbn; lia].
  unfold in_quotes. cbn [length]. rewrite app_length, b64_length. cbn [length].
  pose proof (Nat.div_mod (length (vis s) + 2) 3 ltac:(lia)). lia.
Qed.
Lemma slots_text l : 3 * list_sum (map (@length byte) (map render (map (fun a => bytes_json (option_map vis a)) l))) <= 4 * total l + 14 * length l.
Proof.
  unfold total. induction l as [|a l IH]; [cbn; lia|]. cbn [map length]. pose proof (slot_text a).
  rewrite !sum_cons. lia.
Qed.
Lemma attrs_text l : 3 * length (render (JArr (map (fun a => bytes_json (option_map vis a)) l))) <= 4 * total l + 17 * length l + 6.
Proof.
  cbn [render length]. rewrite app_length. cbn [length]. pose proof (slots_text l) as S.
  pose proof (join_length x2c (map render (map (fun a => bytes_json (option_map vis a)) l))) as J. rewrite !map_length in J. lia.
Qed.
Lemma time_text zone t j : time_json zone t = Some j -> length (render j) <= 37.
Proof.
  unfold time_json. destruct (marshal_time (zone t) t) as [s|] eqn:E; [|discriminate]. intros K. injection K as <-.
  cbn [render]. unfold in_quotes. cbn [length]. rewrite app_length. cbn [length]. pose proof (time_length _ _ _ E). lia.
Qed.
Definition member (kv : bytes * json) : bytes := in_quotes (fst kv) ++ x3a :: render (snd kv).
Lemma member_length k v : length (member (k, v)) = length k + 3 + length (render v).
Proof. unfold member, in_quotes. cbn [fst snd]. repeat (rewrite ?app_length; cbn [length]). lia. Qed.
Lemma object_length l : length (render (JObj l)) <= 2 + list_sum (map (fun kv => length (member kv)) l) + length l.
Proof.
  change (render (JObj l)) with (x7b :: join x2c (map member l) ++ [x7d]). cbn [length]. rewrite app_length. cbn [length].
  pose proof (join_length x2c (map member l)) as J. rewrite map_map, map_length in J. lia.
Qed.

Lemma record_line zone r raw : ar_raw r = Some raw -> length raw = 72 -> ar_meta r = None ->
  3 * length (json_line zone r) <= 4 * total (ar_attrs r) + 17 * length (ar_attrs r) + 530.
Proof.
  intros Er Lr Em. unfold json_line, marshal, archival_json. rewrite Er, Em.
  destruct (time_json zone (ar_time r)) as [t|] eqn:Et; [|cbn [length]; lia].
  apply time_text in Et. destruct raw as [|c b]; [discriminate Lr|].
  set (R := bytes_json (Some (c :: b))). assert (LR : length (render R) = 98).
  { unfold R. cbn [bytes_json render]. unfold in_quotes. cbn [length]. rewrite app_length, b64_length, Lr. reflexivity. }
  clearbody R. pose proof (attrs_text (ar_attrs r)) as A. set (J := JArr _) in A.
  assert (G : forall l, length (render (JObj ([(str "Timestamp", t)] ++ [(str "RawIDM", R)] ++ l ++ []))) <=
     2 + (49 + (107 + (list_sum (map (fun kv => length (member kv)) l) + 0))) + (2 + length l)).
  { intros l. pose proof (object_length ([(str "Timestamp", t)] ++ [(str "RawIDM", R)] ++ l ++ [])) as O.
    rewrite app_nil_r in O |- *. cbn [app map] in O |- *. rewrite !sum_cons in O.
    rewrite !member_length in O. change (length (str "Timestamp")) with 9 in O. change (length (str "RawIDM")) with 6 in O. cbn [length] in O. lia. }
  destruct (ar_attrs r) as [|a l] eqn:Ea.
  - specialize (G []). cbn [map list_sum fold_right length] in G. unfold list_sum in G. cbn [fold_right] in G. lia.
  - fold J. specialize (G [(str "Attributes", J)]). cbn [map] in G. rewrite !sum_cons in G.
    rewrite member_length in G. change (length (str "Attributes")) with 10 in G. cbn [length list_sum fold_right] in G. unfold list_sum in G. cbn [fold_right] in G. lia.
Qed.

Lemma meta_line zone md : (-9223372036854775808 <= md_seq md <= 9223372036854775807)%Z ->
  length (header_line zone md) <= 250 + 6 * length (md_uuid md).
Proof.
  intros Hs. unfold header_line, json_line, marshal, archival_json. cbn [ar_time ar_raw ar_attrs ar_meta].
  destruct (time_json zone zero_time) as [t|] eqn:Et; [|cbn [length]; lia]. apply time_text in Et.
  unfold metadata_json. destruct (time_json zone (md_start md)) as [t'|] eqn:Et'; [|cbn [length]; lia]. apply time_text in Et'.
  set (M := JObj [(str "UUID", _); _; _]). assert (LM : length (render M) <= 5 + (7 + (2 + 6 * length (md_uuid md)) + (11 + 21 + (12 + 37)))).
  { unfold M. match goal with |- length (render (JObj ?l)) <= _ => pose proof (object_length l) as O end.
    cbn [map] in O. rewrite !sum_cons in O. rewrite !member_length in O.
    change (length (str "UUID")) with 4 in O. change (length (str "Sequence")) with 8 in O. change (length (str "StartTime")) with 9 in O.
    change (list_sum []) with 0 in O.
    assert (Q : length (render (JStr (quote (md_uuid md)))) <= 2 + 6 * length (md_uuid md)).
    { cbn [render]. unfold in_quotes. cbn [length]. rewrite app_length. cbn [length]. pose proof (quote_length (md_uuid md)). lia. }
    assert (D : length (render (JNum (decZ (md_seq md)))) <= 21) by (cbn [render]; apply decZ_length, Hs).
    change (length [_; _; _]) with 3 in O. lia. }
  clearbody M. cbn [app]. match goal with |- length (render (JObj ?l)) <= _ => pose proof (object_length l) as O end.
  cbn [map] in O. rewrite !sum_cons in O. rewrite !member_length in O.
  change (length (str "Timestamp")) with 9 in O. change (length (str "Metadata")) with 8 in O. change (list_sum []) with 0 in O. cbn [length] in O. lia.
Qed.
