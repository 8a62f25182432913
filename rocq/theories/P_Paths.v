(** C21 (continued): the names of the files, letter by letter. *)
From Coq Require Import Strings.String.
From stdpp Require Import gmap.
From Coq Require Import NArith ZArith Lia ZifyN ZifyNat ZifyBool.
From Verif Require Import GoBase GoBaseFacts GoTime Netlink Cache Saver SpecSaver Samples P_Saver SpecPath PathFacts GoDate GoDateFacts.
Local Open Scope list_scope.

(** Every time has one date. *)
Theorem C21_calendar : forall t, exists x, date_at t x /\ forall x', date_at t x' -> x' = x.
Proof. intros t. exists (date t). split; [by apply date_at_iff|]. intros x'. apply date_at_iff. Qed.
Print Assumptions C21_calendar.

(** Go's own computation, on uint64 seconds since the year -292277022399, tells that
    date and the time of the day, for all times but the first 258 years that an
    int64 of Unix seconds reaches. *)
Theorem C21_go_time : forall t, (-9223372028715321600 <= unix t < 9223372036854775808)%Z ->
  date_at t (go_date t) /\
  exists h m s n, go_clock t = (h, m, s, n) /\ (0 <= h < 24 /\ 0 <= m < 60 /\ 0 <= s < 60 /\ 0 <= n < 1000000000)%Z /\
    exists day, t = ((((day * 24 + h) * 60 + m) * 60 + s) * 1000000000 + n)%Z.
Proof.
  intros t H. split; [apply date_at_iff; by apply go_date_is|]. rewrite go_clock_is by exact H. unfold clock_of.
  eexists _, _, _, _. split; [reflexivity|]. unfold unix, second. split; [|exists (t / 1000000000 / 86400)%Z]; Z.to_euclidean_division_equations; lia.
Qed.
Print Assumptions C21_go_time.
Example c21_go_time : go_date (951782400 * second) = (2000, 2, 29)%Z /\ go_clock (-1) = (23, 59, 59, 999999999)%Z /\ go_date (-1) = (1969, 12, 31)%Z.
Proof. vm_compute. done. Qed.

(** A file that is created is named by a day, the cookie and the sequence number:
    the day of the start of the connection for the first file, and the day of the
    creation for the others. *)
Theorem C21_path : forall w cf bs l1 wr p l2, s_log (message_saver_loop w cf bs) = l1 ++ ACreate wr p :: l2 ->
  exists md l3 k now K, l2 = AHeader wr md :: l3 /\ last_reading l1 = Some now /\ (0 <= md_seq md)%Z /\
    padded 16 16 K k /\ md_uuid md = uuid_prefix w ++ str "_" ++ K /\
    forall t, t = (if (md_seq md =? 0)%Z then md_start md else now) -> (-62167219200000000000 <= t)%Z ->
      path_of (uuid_prefix w) t k (Z.to_nat (md_seq md)) p.
Proof.
  intros w cf bs l1 wr p l2 H. destruct (C21_names w cf bs l1 wr p l2 H) as (md & l3 & -> & k & now & Hk & Hu & Hn & Hs & Hp).
  exists md, l3, k, now, (hex16 k). split; [done|]. split; [done|]. split; [done|]. split; [by apply padded_hex|]. split; [exact Hu|].
  intros t Ht T. rewrite Hp, <- Ht. by apply path_ok.
Qed.
Print Assumptions C21_path.

(** The path tells the machine and its boot (the prefix), the day, the connection
    and the number of the file. *)
Theorem C21_path_tells : forall P P' t t' k k' n n' p, (-62167219200000000000 <= t)%Z -> (-62167219200000000000 <= t')%Z -> ~ In x2f P -> ~ In x2f P' ->
  path_of P t k n p -> path_of P' t' k' n' p -> P = P' /\ (exists x, date_at t x /\ date_at t' x) /\ k = k' /\ n = n'.
Proof. exact path_tells. Qed.
Print Assumptions C21_path_tells.

(** The days around the end of a February, and of a year; and a path. *)
Example c21_days : date_at (951782400 * second) (2000, 2, 29)%Z /\ date_at (951868800 * second) (2000, 3, 1)%Z /\
  date_at (4107542399 * second) (2100, 2, 28)%Z /\ date_at (4107542400 * second) (2100, 3, 1)%Z /\
  date_at (-1) (1969, 12, 31)%Z.
Proof. repeat split; apply date_at_iff; vm_compute; reflexivity. Qed.
Example c21_path_case : exists l1 l2, s_log (message_saver_loop w0 cf0 bs0) =
  l1 ++ ACreate 0 (str "1970/01/01/host_5e0be100_0000000000000007.00000.jsonl.zst"%string) :: l2.
Proof. vm_compute. eexists [_; _; _; _; _], _. reflexivity. Qed.
