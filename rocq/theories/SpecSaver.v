(** What can be read off the log of a saver run: events per flow, the history of
    each output file, numbering of files, clock readings. *)
From stdpp Require Import gmap.
From Coq Require Import NArith ZArith.
From Verif Require Import GoBase GoTime Netlink SpecNetlink SpecCompare Cache SpecCache Saver.

(** ** Environments *)
(** Map iteration visits every key exactly once. *)
Definition fair_order (w : world) : Prop := forall n l, order w n l ≡ₚ l.
(** No file operation fails. *)
Definition io_ok (w : world) : Prop := forall n, mkdir_ok w n = true /\ create_ok w n = true.
(** The clock never goes back. *)
Definition monotonic (w : world) : Prop := forall i j, i <= j -> (clock w i <= clock w j)%Z.

(** ** Events of one flow: true is Open, false is Close *)
Definition events (k : N) (l : list action) : list bool :=
  omap (fun a => match a with
                 | AOpen _ k' _ => if N.eqb k' k then Some true else None
                 | AClose _ k' => if N.eqb k' k then Some false else None
                 | _ => None
                 end) l.
(** b, not b, b, not b, ... *)
Fixpoint alternating (b : bool) (l : list bool) : Prop :=
  match l with
  | [] => True
  | x :: r => x = b /\ alternating (negb b) r
  end.

(** ** The history of one file *)
Definition about (wr : nat) (a : action) : bool :=
  match a with
  | ACreate w' _ | AHeader w' _ | ASend _ _ w' => Nat.eqb w' wr
  | _ => false
  end.
Definition file_actions (wr : nat) (l : list action) : list action := List.filter (about wr) l.

(** Header first, then records of the connection named in it, all sent to one
    queue, then possibly the close. *)
Definition written (wr : nat) (q : nat) (md : metadata) (recs : list cell) (path : bytes)
  (closed : bool) : list action :=
  [ACreate wr path; AHeader wr md] ++ map (fun m => ASend q (Some m) wr) recs
  ++ (if closed then [ASend q None wr] else []).
Definition file_history (prefix : bytes) (wr : nat) (closed : bool) (l : list action) : Prop :=
  exists q k md recs path,
    l = written wr q md recs path closed /\
    (k < two64)%N /\ md_uuid md = from_cookie prefix k /\
    Forall (fun m => usable m /\ cookie_of m = k) recs.

(** ** Numbering of the files of one connection *)
(** Some n: a file with number n is started; None: the connection is (re)opened *)
Definition numbering (prefix : bytes) (k : N) (l : list action) : list (option Z) :=
  omap (fun a => match a with
                 | AOpen _ k' _ => if N.eqb k' k then Some None else None
                 | AHeader _ md => if bytes_eqb (md_uuid md) (from_cookie prefix k) then Some (Some (md_seq md)) else None
                 | _ => None
                 end) l.
(** 0, 1, 2, ... after each opening *)
Fixpoint consecutive (next : Z) (l : list (option Z)) : Prop :=
  match l with
  | [] => True
  | None :: r => consecutive 0 r
  | Some n :: r => n = next /\ consecutive (next + 1) r
  end.

(** ** Clock readings *)
Definition readings (l : list action) : list Z := omap (fun a => match a with ANow t => Some t | _ => None end) l.
Definition last_reading (l : list action) : option Z := last (readings l).

(** ** What a block contains *)
(** The records made from the messages of a block, in processing order. *)
Definition accepted_of (ex : option exclude_config) (t : Z) (msgs : list (option nlmsg)) : list archival :=
  omap (fun m => match m with
                 | Some m => match make_archival_record m ex with
                             | Ret (Some ar) => Some (mkar t (ar_raw ar) (ar_attrs ar) (ar_meta ar))
                             | _ => None
                             end
                 | None => None
                 end) msgs.
Definition accepted (cf : config) (b : block) : list archival :=
  accepted_of (excl cf) (V4Time b) (V4Messages b) ++ accepted_of (excl cf) (V6Time b) (V6Messages b).
(** The connection of a record, and the last record of a connection in a list. *)
Definition rec_cookie (r : archival) : N := hdr_cookie (header r).
Definition latest (k : N) (l : list archival) : option archival := last (filter (fun r => rec_cookie r = k) l).
(** The connections of some records. *)
Definition cookies_of (l : list archival) : list N := rec_cookie <$> l.
(** The accepted records of the last block of a history. *)
Definition last_accepted (cf : config) (bs : list block) : list archival :=
  match last bs with Some b => accepted cf b | None => [] end.

(** The record a message is compared with: that of the previous block, unless the
    connection was already met in this block. *)
Definition reference (prevb curb : list archival) (k : N) : option archival :=
  if latest k curb then None else latest k prevb.
(** New or changed *)
Definition worth_saving (prevb curb : list archival) (r : archival) : bool :=
  match reference prevb curb (rec_cookie r) with
  | None => true
  | Some o => match compare r (Some o) with
              | Ret NoMajorChange => false
              | Ret _ => true
              | _ => false
              end
  end.
(** The records of a block that are to be saved, in order; [curb] are those of
    the block met so far. *)
Fixpoint saves (prevb curb l : list archival) : list archival :=
  match l with
  | [] => []
  | r :: l' => (if worth_saving prevb curb r && negb (N.eqb (rec_cookie r) 0) then [r] else [])
               ++ saves prevb (curb ++ [r]) l'
  end.
(** The events of connection k in a block. *)
Definition block_events (k : N) (prevb curb : list archival) : list bool :=
  match latest k prevb, latest k curb with
  | None, Some _ => [true]
  | Some _, None => [false]
  | _, _ => []
  end.
(** All records of a history are comparable (C09). *)
Definition all_comparable (cf : config) (bs : list block) : Prop :=
  Forall (fun b => Forall comparable (accepted cf b)) bs.
(** No message crashes the parser (C02). *)
Definition parses (cf : config) (b : block) : Prop :=
  Forall (fun m => forall msg, m = Some msg -> make_archival_record msg (excl cf) <> Panic) (V4Messages b ++ V6Messages b).

(** ** Records queued *)
Definition queued (l : list action) : list archival :=
  omap (fun a => match a with ASend _ (Some m) _ => Some (c_ar m) | _ => None end) l.

(** Every action with the last clock reading before it. *)
Fixpoint stamped (lr : option Z) (l : list action) : list (option Z * action) :=
  match l with
  | [] => []
  | a :: r => (lr, a) :: stamped (match a with ANow t => Some t | _ => lr end) r
  end.

(** ** Counting actions *)
Definition count (f : action -> bool) (l : list action) : nat := length (List.filter f l).
Definition is_snapshot (a : action) : bool := match a with ASnapshot => true | _ => false end.
Definition is_close (a : action) : bool := match a with AClose _ _ => true | _ => false end.
Definition is_created (a : action) : bool := match a with ACreate _ _ => true | _ => false end.
Definition is_new_file (a : action) : bool := match a with ANewFile => true | _ => false end.
(** The observations of the cache size *)
Definition cache_sizes (l : list action) : list nat := omap (fun a => match a with ACacheSize n => Some n | _ => None end) l.

(** ** Messages that must leave no trace (C31): nil, of another type, too short,
    excluded, or with a bad attribute length *)
Definition no_trace (ex : option exclude_config) (m : option nlmsg) : Prop :=
  match m with
  | None => True
  | Some msg =>
      h_type (m_header msg) <> 20%N \/ length (vis (m_data msg)) < 72 \/
      (exists e, ex = Some e /\ should_exclude (ex_local e = true)
         (fun p => exists m, ex_srcports e = Some m /\ m p = true)
         (fun d => exists m, ex_dstips e = Some m /\ m d = true) (firstn 72 (vis (m_data msg)))) \/
      wire_bad_length (skipn 72 (vis (m_data msg)))
  end.
(** The second list is the first with such messages put in anywhere. *)
Inductive padded (ex : option exclude_config) : list (option nlmsg) -> list (option nlmsg) -> Prop :=
| pad_nil : padded ex [] []
| pad_keep m l l' : padded ex l l' -> padded ex (m :: l) (m :: l')
| pad_put m l l' : no_trace ex m -> padded ex l l' -> padded ex l (m :: l').
Definition padded_block (ex : option exclude_config) (b b' : block) : Prop :=
  V4Time b = V4Time b' /\ V6Time b = V6Time b' /\
  padded ex (V4Messages b) (V4Messages b') /\ padded ex (V6Messages b) (V6Messages b').

(** ** Clocks that never went back during a run *)
Fixpoint nondecreasing (l : list Z) : Prop :=
  match l with
  | x :: (y :: _) as r => (x <= y)%Z /\ nondecreasing r
  | _ => True
  end.
(** The clock reading at the latest Open event of connection k. *)
Definition opened_at (k : N) (l : list action) : option Z :=
  last (omap (fun x => match x.2 with AOpen _ k' _ => if N.eqb k' k then x.1 else None | _ => None end) (stamped None l)).

(** ** Up-to-date files (C23): the last record of connection k among those
    queued is r, or differs from it in nothing significant. *)
Definition up_to_date (k : N) (Q : list archival) (r : archival) : Prop :=
  exists q, latest k Q = Some q /\ (q = r \/ no_significant_change q r).

(** ** What to save (C24), without reference to Compare: [l'] are the records of
    [l] to be saved, [curb] being those of the block met before. *)
Inductive to_save (prevb : list archival) : list archival -> list archival -> list archival -> Prop :=
| ts_nil curb : to_save prevb curb [] []
| ts_new curb r l l' : rec_cookie r <> 0%N -> reference prevb curb (rec_cookie r) = None ->
    to_save prevb (curb ++ [r]) l l' -> to_save prevb curb (r :: l) (r :: l')
| ts_changed curb r o l l' : rec_cookie r <> 0%N -> reference prevb curb (rec_cookie r) = Some o ->
    ~ no_significant_change o r -> to_save prevb (curb ++ [r]) l l' -> to_save prevb curb (r :: l) (r :: l')
| ts_same curb r o l l' : rec_cookie r <> 0%N -> reference prevb curb (rec_cookie r) = Some o ->
    no_significant_change o r -> to_save prevb (curb ++ [r]) l l' -> to_save prevb curb (r :: l) l'
| ts_zero curb r l l' : rec_cookie r = 0%N -> to_save prevb (curb ++ [r]) l l' -> to_save prevb curb (r :: l) l'.
