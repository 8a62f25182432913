(** Byte totals and throughput reports: what they should be. *)
From stdpp Require Import gmap.
From Coq Require Import NArith ZArith.
From Verif Require Import GoBase GoTime Netlink SpecNetlink SpecCompare Cache SpecCache Saver SpecSaver.

(** ** Bytes of one record: BytesSent and BytesReceived of its TCP_INFO *)
Definition byte_counts (r : archival) : option (N * N) :=
  match slot 2 r with
  | Some i => if 208 <=? length i then Some (le (at_ 200 8 i), le (at_ 128 8 i)) else None
  | None => None
  end.
(** No attribute at or above TCP_INFO. *)
Definition bare (r : archival) : Prop := length (ar_attrs r) <= 2.

(** ** Histories of rounds, the latest first *)
(** The last bytes reported in the lifetime of connection k that reaches into
    the latest round. *)
Fixpoint last_counts (rh : list (list archival)) (k : N) : N * N :=
  match rh with
  | [] => (0, 0)%N
  | C :: rh' =>
      match latest k C with
      | Some r => match byte_counts r with Some x => x | None => last_counts rh' k end
      | None => (0, 0)%N
      end
  end.
(** One entry for every connection of the latest round, one for every lifetime
    that has ended. *)
Definition current (rh : list (list archival)) : list (N * N) :=
  match rh with
  | [] => []
  | C :: _ => last_counts rh <$> cookies_of C
  end.
Fixpoint ended (rh : list (list archival)) : list (N * N) :=
  match rh with
  | [] => []
  | C :: rh' =>
      match rh' with
      | P :: _ => last_counts rh' <$> filter (fun k => k ∉ cookies_of C) (cookies_of P)
      | [] => []
      end ++ ended rh'
  end.
Definition sum_pairs (l : list (N * N)) : N * N := foldr (fun x a => (x.1 + a.1, x.2 + a.2)%N) (0, 0)%N l.
Definition grand_total (rh : list (list archival)) : N * N := sum_pairs (current rh ++ ended rh).

(** Every connection once per round, with TCP_INFO until it possibly loses it,
    and everything above, for good. *)
Fixpoint disciplined (rh : list (list archival)) : Prop :=
  match rh with
  | [] => True
  | C :: rh' =>
      NoDup (cookies_of C) /\ Forall (fun r => is_Some (byte_counts r) \/ bare r) C /\
      match rh' with
      | P :: _ => forall o r, o ∈ P -> r ∈ C -> rec_cookie o = rec_cookie r -> bare o -> bare r
      | [] => True
      end /\ disciplined rh'
  end.
Definition rounds (cf : config) (bs : list block) : list (list archival) := rev (map (accepted cf) bs).

(** ** Reports *)
Definition is_report (a : action) : bool :=
  match a with AObsSent _ | AObsRecv _ | AErrSent _ | AErrRecv _ => true | _ => false end.
Definition reports (l : list action) : list action := List.filter is_report l.
Definition observed_sent (l : list action) : list N := omap (fun a => match a with AObsSent n => Some n | _ => None end) l.
Definition observed_recv (l : list action) : list N := omap (fun a => match a with AObsRecv n => Some n | _ => None end) l.
Definition sum_N (l : list N) : N := foldr N.add 0%N l.

(** 12.5 GB: what a 10 Gb/s link can carry in ten seconds. *)
Definition most : N := 12500000000.
(** The report for a total when [before] has been reported so far. *)
Definition expected_one (before total : N) (obs : N -> action) (err : bool -> action) : action :=
  if (before <=? total)%N && (total <=? before + most)%N && (before + most <? 2 ^ 64)%N
  then obs (total - before)%N else err (total <? before)%N.
(** A block is reported if its second is later than those of all blocks before. *)
Definition due (bs : list block) (b : block) : bool :=
  (zero_unix <? unix (V4Time b))%Z && forallb (fun b' => unix (V4Time b') <? unix (V4Time b))%Z bs.
Definition expected (l : list action) (total : N * N) (now : bool) : list action :=
  if now then [expected_one (sum_N (observed_sent l)) total.1 AObsSent AErrSent;
               expected_one (sum_N (observed_recv l)) total.2 AObsRecv AErrRecv]
  else [].
