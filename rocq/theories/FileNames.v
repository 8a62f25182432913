(** The name of a file of the saver, its metadata and its records belong to one
    connection. *)
From Coq Require Import Strings.String.
From stdpp Require Import gmap.
From Coq Require Import NArith ZArith Lia.
From Verif Require Import GoBase GoBaseFacts GoTime Netlink SpecNetlink SpecCompare Cache Saver SpecSaver SpecRecovered SaverSteps SaverFiles SpecPath PathFacts SpecTool.
Local Open Scope list_scope.

Lemma name_text dir host K N : dir ++ [x2f] ++ (host ++ [x5f] ++ K) ++ [x2e] ++ N ++ str ".jsonl.zst" =
  dir ++ str "/" ++ host ++ str "_" ++ K ++ str "." ++ N ++ str ".jsonl.zst".
Proof. rewrite <- !app_assoc. reflexivity. Qed.

Lemma file_named w cf bs wr p : ACreate wr p ∈ log_of w cf bs -> exists k seq md,
  named_for (uuid_prefix w) k seq p /\ AHeader wr md ∈ log_of w cf bs /\ (forall md', AHeader wr md' ∈ log_of w cf bs -> md' = md) /\
  (exists K, padded 16 16 K k /\ md_uuid md = uuid_prefix w ++ str "_" ++ K) /\ md_seq md = Z.of_nat seq /\
  forall q, q ∈ queued (file_actions wr (log_of w cf bs)) -> rec_cookie q = k.
Proof.
  intros I. pose proof (message_saver_loop_steps w cf bs) as R. fold (log_of w cf bs) in *.
  apply elem_of_list_split in I as (l1 & l2 & E). pose proof E as E'. unfold log_of in E'.
  destruct (files_named w cf _ l1 wr p l2 R E') as (md & l3 & -> & (k & t & Lt & U & _ & S & Ep)).
  exists k, (Z.to_nat (md_seq md)), md.
  assert (Hh : AHeader wr md ∈ log_of w cf bs) by (rewrite E; apply elem_of_app; right; right; left).
  assert (F : forall a, about wr a = true -> a ∈ log_of w cf bs -> a ∈ file_actions wr (log_of w cf bs)).
  { intros a Ha In. unfold file_actions. apply elem_of_list_In, List.filter_In. split; [by apply elem_of_list_In|exact Ha]. }
  assert (Ah : forall m, about wr (AHeader wr m) = true) by (intros m; cbn; apply Nat.eqb_refl).
  pose proof (F _ (Ah md) Hh) as Fh.
  destruct (file_histories w cf _ wr R) as [Em|(cl & q & k' & md' & recs & path & Eh & Lt' & U' & Fr)]; [unfold log_of in Fh; rewrite Em in Fh; by apply elem_of_nil in Fh|].
  assert (One : forall m, AHeader wr m ∈ log_of w cf bs -> m = md').
  { intros m Im. pose proof (F _ (Ah m) Im) as Fm. unfold log_of in Fm. rewrite Eh in Fm. unfold written in Fm. cbn [app] in Fm.
    apply elem_of_cons in Fm as [X|Fm]; [discriminate X|]. apply elem_of_cons in Fm as [X|Fm]; [by injection X|].
    apply elem_of_app in Fm as [Fm|Fm]; [apply elem_of_list_In, in_map_iff in Fm as (? & X & _); discriminate X|].
    destruct cl; [apply elem_of_list_singleton in Fm; discriminate Fm|by apply elem_of_nil in Fm]. }
  pose proof (One md Hh) as <-. rewrite U in U'.
  assert (Ek : k = k').
  { unfold from_cookie in U'. apply app_inv_head in U'. apply (app_inv_head [x5f]) in U'. apply GoBaseFacts.hex16_inj in U'; auto. }
  subst k'. split.
  - exists (format_date (if (md_seq md =? 0)%Z then md_start md else t)), (hex16 k), (dec_pad 5 (N.of_nat (Z.to_nat (md_seq md)))).
    split; [apply padded_hex, Lt|]. split; [apply padded_dec; lia|]. rewrite Ep. unfold file_path, from_cookie. apply name_text.
  - split; [exact Hh|]. split; [exact One|]. split; [exists (hex16 k); split; [apply padded_hex, Lt|exact U]|]. split; [lia|].
    intros q' Hq. unfold log_of in Hq. rewrite Eh in Hq. unfold written, queued in Hq. apply elem_of_list_omap in Hq as (a & Ia & Ea).
    cbn [app] in Ia. apply elem_of_cons in Ia as [->|Ia]; [discriminate Ea|]. apply elem_of_cons in Ia as [->|Ia]; [discriminate Ea|].
    apply elem_of_app in Ia as [Ia|Ia].
    + apply elem_of_list_In, in_map_iff in Ia as (m & <- & Im). injection Ea as <-. rewrite List.Forall_forall in Fr. destruct (Fr m Im) as [_ C]. exact C.
    + destruct cl; [apply elem_of_list_singleton in Ia as ->; discriminate Ea|by apply elem_of_nil in Ia].
Qed.
