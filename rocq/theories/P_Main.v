(** C51: the flags of the command exclude what they name. *)
From Coq Require Import Strings.String.
From stdpp Require Import gmap relations.
From Coq Require Import List NArith ZArith Lia.
From Verif Require Import GoBase NetIP Inetdiag Netlink SpecNetlink SpecConfig NetlinkFacts AddrFacts RecordFacts ConfigFacts IPTextFacts IPTextSound
  SpecCompare MainConfig Cache Saver EventServer System SpecSaver SpecSystem P_System Samples.
Import ListNotations.
Local Open Scope list_scope.

(** The sixteen bytes the kernel uses for an address (given in its 16-byte form). *)
Definition kernel_form (x d : bytes) : Prop :=
  (v4_mapped x /\ d = at_ 12 4 x ++ repeat x00 12) \/ (~ v4_mapped x /\ d = x).
(** What the flags name: destinations and local ports. *)
Definition named_dst (dips : list bytes) (d : bytes) : Prop := exists t x, In t dips /\ ip_text t x /\ kernel_form x d.
Definition named_port (ports : list bytes) (p : N) : Prop :=
  exists t z, In t ports /\ signed_decimal t z /\ (-32768 <= z <= 32767)%Z /\ p = Z.to_N (z mod 65536).
Definition unwanted (dips ports : list bytes) (raw : bytes) : Prop :=
  named_port ports (hdr_sport raw) \/ (sock_local (hdr_src raw) \/ sock_local (hdr_dst raw)) \/ named_dst dips (hdr_dst raw).

Lemma ip_text_length t x : ip_text t x -> length x = 16.
Proof.
  intros [(a & b & c & d & _ & _ & ->)|H]; [reflexivity|]. exact (proj2 (parse_ip_v6 t x H)).
Qed.
Lemma mapped_dec x : length x = 16 -> v4_mapped x \/ ~ v4_mapped x.
Proof. intros H. rewrite <- (to4_mapped x H). destruct (to4 x); [left; discriminate | right; intros K; apply K; reflexivity]. Qed.
Lemma dst_key_kernel x d : length x = 16 -> (kernel_form x d <-> d = dst_key x).
Proof.
  intros L. assert (K : v4_mapped x -> dst_key x = at_ 12 4 x ++ repeat x00 12).
  { intros K. unfold dst_key. apply (to4_mapped x L) in K. destruct (to4 x); [|congruence]. f_equal. unfold at_.
    symmetry. apply firstn_all2. rewrite skipn_length. lia. }
  unfold kernel_form. destruct (mapped_dec x L) as [M|M].
  - rewrite (K M). tauto.
  - rewrite (dst_key_v6 x L M). tauto.
Qed.

Lemma add_all_dst l : forall ex, let ex' := add_all add_dst_ip ex l in
  ex_local ex' = ex_local ex /\ ex_srcports ex' = ex_srcports ex /\ forall d, dsts_of ex' d <-> named_dst l d \/ dsts_of ex d.
Proof.
  induction l as [|t l IH]; intros ex; cbn.
  - split; [reflexivity|]. split; [reflexivity|]. intros d. split; [auto|]. intros [(t & x & H & _)|H]; [contradiction | exact H].
  - assert (G : exists ex1, match add_dst_ip ex t with Ret ex' => ex' | _ => ex end = ex1 /\
        ex_local ex1 = ex_local ex /\ ex_srcports ex1 = ex_srcports ex /\ forall d, dsts_of ex1 d <-> (exists x, ip_text t x /\ kernel_form x d) \/ dsts_of ex d).
    { destruct (parse_ip t) as [x|] eqn:E.
      - destruct (add_dst_ip_effect ex t x E) as (ex1 & E1 & K1 & K2 & K3). exists ex1. rewrite E1. split; [reflexivity|].
        split; [exact K1|]. split; [exact K2|]. intros d. rewrite K3. apply parse_ip_iff in E. split.
        + intros [->|H]; [left | right; exact H]. exists x. split; [exact E|]. apply dst_key_kernel; [exact (ip_text_length t x E) | reflexivity].
        + intros [(y & Hy & Hk)|H]; [left | right; exact H]. apply parse_ip_iff in E, Hy. rewrite E in Hy. injection Hy as <-.
          apply parse_ip_iff in E. apply (dst_key_kernel x d (ip_text_length t x E)). exact Hk.
      - exists ex. unfold add_dst_ip. rewrite E. split; [reflexivity|]. split; [reflexivity|]. split; [reflexivity|].
        intros d. split; [auto|]. intros [(x & Hx & _)|H]; [|exact H]. apply parse_ip_iff in Hx. congruence. }
    destruct G as (ex1 & E & K1 & K2 & K3). rewrite E. destruct (IH ex1) as (L1 & L2 & L3). unfold add_all in L1, L2, L3.
    split; [congruence|]. split; [congruence|]. intros d. rewrite L3, K3. unfold named_dst. split.
    + intros [(s & x & H)|[(x & H)|H]]; [left; exists s, x; split; [right; apply H | apply H] | left; exists t, x; split; [left; reflexivity | exact H] | right; exact H].
    + intros [(s & x & [->|Hi] & H)|H]; [right; left; exists x; exact H | left; exists s, x; split; [exact Hi | exact H] | right; right; exact H].
Qed.

Lemma add_all_port l : forall ex, let ex' := add_all add_src_port ex l in
  ex_local ex' = ex_local ex /\ ex_dstips ex' = ex_dstips ex /\ forall p, ports_of ex' p <-> named_port l p \/ ports_of ex p.
Proof.
  induction l as [|t l IH]; intros ex; cbn.
  - split; [reflexivity|]. split; [reflexivity|]. intros p. split; [auto|]. intros [(t & z & H & _)|H]; [contradiction | exact H].
  - assert (G : exists ex1, match add_src_port ex t with Ret ex' => ex' | _ => ex end = ex1 /\
        ex_local ex1 = ex_local ex /\ ex_dstips ex1 = ex_dstips ex /\
        forall p, ports_of ex1 p <-> (exists z, signed_decimal t z /\ (-32768 <= z <= 32767)%Z /\ p = Z.to_N (z mod 65536)) \/ ports_of ex p).
    { assert (F : add_src_port ex t = match parse_int16 t with Ret z => add_src_port ex t | Fail e => Fail e | Panic => Panic | Diverge => Diverge end)
        by (unfold add_src_port; destruct (parse_int16 t); reflexivity).
      destruct (parse_int16 t) as [z|e| |] eqn:E.
      - apply parse_int16_ret in E. destruct (proj2 (add_src_port_iff ex t) (ex_intro _ z E)) as (ex1 & E1). exists ex1. rewrite E1.
        destruct (add_src_port_effect ex t ex1 z E1 (proj1 E)) as (K1 & K2 & K3). split; [reflexivity|].
        split; [exact K1|]. split; [exact K2|]. intros p. rewrite K3. split.
        + intros [->|H]; [left | right; exact H]. exists z. split; [apply E|]. split; [apply E | reflexivity].
        + intros [(y & Hy & _ & ->)|H]; [left | right; exact H]. rewrite (signed_decimal_fun t y z Hy (proj1 E)). reflexivity.
      - exists ex. rewrite F. split; [reflexivity|]. split; [reflexivity|]. split; [reflexivity|]. intros p. split; [auto|].
        intros [(z & Hz & Hr & _)|H]; [|exact H]. rewrite (proj2 (parse_int16_ret t z) (conj Hz Hr)) in E. discriminate E.
      - exists ex. rewrite F. split; [reflexivity|]. split; [reflexivity|]. split; [reflexivity|]. intros p. split; [auto|].
        intros [(z & Hz & Hr & _)|H]; [|exact H]. rewrite (proj2 (parse_int16_ret t z) (conj Hz Hr)) in E. discriminate E.
      - exists ex. rewrite F. split; [reflexivity|]. split; [reflexivity|]. split; [reflexivity|]. intros p. split; [auto|].
        intros [(z & Hz & Hr & _)|H]; [|exact H]. rewrite (proj2 (parse_int16_ret t z) (conj Hz Hr)) in E. discriminate E. }
    destruct G as (ex1 & E & K1 & K2 & K3). rewrite E. destruct (IH ex1) as (L1 & L2 & L3). unfold add_all in L1, L2, L3.
    split; [congruence|]. split; [congruence|]. intros p. rewrite L3, K3. unfold named_port. split.
    + intros [(s & x & H)|[(x & H)|H]]; [left; exists s, x; split; [right; apply H | apply H] | left; exists t, x; split; [left; reflexivity | exact H] | right; exact H].
    + intros [(s & x & [->|Hi] & H)|H]; [right; left; exists x; exact H | left; exists s, x; split; [exact Hi | exact H] | right; right; exact H].
Qed.

Lemma main_excludes dips ports raw : excludes (main_config dips ports) raw <-> unwanted dips ports raw.
Proof.
  unfold main_config. destruct (add_all_dst dips (mkex true None None)) as (A1 & A2 & A3).
  destruct (add_all_port ports (add_all add_dst_ip (mkex true None None) dips)) as (B1 & B2 & B3).
  unfold excludes, should_exclude, unwanted. rewrite B3, B1, A1. unfold dsts_of in *. rewrite B2, A3. unfold ports_of. rewrite A2. cbn.
  split; [intros [[H|(m & H & _)]|[(_ & H)|[H|(m & H & _)]]]; [tauto | discriminate H | tauto | tauto | discriminate H] | intuition].
Qed.

(** A connection is left out iff the flags name its destination or local port, or
    one of its ends is local.  (Values that are not addresses or 16-bit numbers
    have no effect.) *)
Theorem C51_main_excludes : forall dips ports msg,
  make_archival_record msg (Some (main_config dips ports)) = Ret None <->
  h_type (m_header msg) = 20%N /\ 72 <= length (data_of msg) /\ unwanted dips ports (raw_of msg).
Proof.
  intros dips ports msg. rewrite make_ret_none_iff. split.
  - intros (A & B & e & Q & H). injection Q as <-. apply main_excludes in H. auto.
  - intros (A & B & H). split; [exact A|]. split; [exact B|]. exists (main_config dips ports). split; [reflexivity|]. apply main_excludes, H.
Qed.
Print Assumptions C51_main_excludes.

(** Nothing unwanted reaches a file of the running system. *)
Theorem C51_not_in_files : forall dips ports w cap anon line hline, (forall x, length (anon x) = length x) ->
  let cf := mkconfig 3 (Some (main_config dips ports)) in
  forall bs y, reachable w cf cap anon line hline bs y -> forall wr f, y_files y !! wr = Some f ->
  exists md recs rest,
    f_data f ++ rest = (hline md ++ [x0a]) ++ concat (map (fun r => line r ++ [x0a]) recs) /\
    Forall (fun r => exists r0, hidden anon r0 = Some r /\ r0 ∈ concat (map (accepted cf) bs) /\ ~ unwanted dips ports (header r0)) recs.
Proof.
  intros dips ports w cap anon line hline Hl cf bs y Hr wr f Hf.
  destruct (C29_only_anonymized w cf cap anon line hline Hl ltac:(cbn; lia) bs y Hr wr f Hf) as (md & recs & rest & E & F).
  exists md, recs, rest. split; [exact E|]. eapply List.Forall_impl; [|exact F]. cbn beta. intros r (r0 & Hi & Hh).
  exists r0. split; [exact Hh|]. split; [exact Hi|]. clear F E Hf Hr Hh.
  apply elem_of_list_In, in_concat in Hi. destruct Hi as (l & Hl' & Hi). apply in_map_iff in Hl'. destruct Hl' as (b & <- & Hb).
  assert (G : forall t ms, r0 ∈ accepted_of (excl cf) t ms -> ~ unwanted dips ports (header r0)).
  { intros t ms H. unfold accepted_of in H. apply elem_of_list_omap in H. destruct H as ([m|] & _ & H); [|discriminate H].
    destruct (make_archival_record m (excl cf)) as [[ar|]|e| |] eqn:Em; try discriminate H. injection H as <-.
    destruct (make_ret_some m (excl cf) ar Em) as (_ & _ & Hn & l & mm & _ & _ & _ & _ & Hraw & _).
    unfold header. cbn [ar_raw]. rewrite Hraw. intros U. apply main_excludes in U. exact (Hn U). }
  apply elem_of_list_In in Hi. unfold accepted in Hi. apply elem_of_app in Hi as [Hi|Hi]; exact (G _ _ Hi).
Qed.
Print Assumptions C51_not_in_files.

(** Two flags of each kind, one value of each is not usable. *)
Definition flags_dst : list bytes := [str "10.0.0.300"%string; str "8.8.8.8"%string].
Definition flags_port : list bytes := [str "https"%string; str "443"%string].
Example c51_dst : named_dst flags_dst [x08; x08; x08; x08; x00; x00; x00; x00; x00; x00; x00; x00; x00; x00; x00; x00].
Proof.
  exists (str "8.8.8.8"%string), (repeat x00 10 ++ [xff; xff; x08; x08; x08; x08]). split; [right; left; reflexivity|]. split.
  - left. exists 8%N, 8%N, 8%N, 8%N. split; [lia|]. split; reflexivity.
  - left. split; [|reflexivity]. split; [|split; reflexivity]. intros i Hi. do 10 (destruct i as [|i]; [reflexivity|]). lia.
Qed.
Example c51_port : named_port flags_port 443.
Proof. exists (str "443"%string), 443%Z. split; [right; left; reflexivity|]. split; [apply (dec_signed 443)|]. split; [lia | reflexivity]. Qed.
Example c51_run :
  map (fun h => match make_archival_record (sample_msg h) (Some (main_config flags_dst flags_port)) with Ret None => true | _ => false end)
    [sample_hdr 2 1 80 81 (v4 10 1 1 1) (v4 8 8 8 8) 7; sample_hdr 2 1 443 81 (v4 10 1 1 1) (v4 9 9 9 9) 7;
     sample_hdr 2 1 80 81 (v4 127 0 0 1) (v4 9 9 9 9) 7; sample_hdr 2 1 80 81 (v4 10 1 1 1) (v4 9 9 9 9) 7] = [true; true; true; false].
Proof. vm_compute. reflexivity. Qed.
