(** Model of snapshot/snapshot.go: decoding archival records into snapshots. *)
From Coq Require Import Strings.String List NArith ZArith Bool Arith.
From Verif Require Import GoBase Layout Tcp Inetdiag Netlink.
Import ListNotations.
Local Open Scope list_scope.

(** A struct seen through the pointer that Decode stores: the list of its fields
    with their values.  Simplification: the pointer aliases the attribute's
    memory (or a padded copy of it); the value is read once, at decoding time.
    (snapshot/snapshot.go:113-222) *)
Definition fields := list (string * fval).

(** snapshot/snapshot.go:225-269 type Snapshot.  [None] is a nil pointer. *)
Record snapshot := mksnap {
  sn_time : Z; sn_observed : N; sn_notparsed : N;
  sn_idm : option idm; sn_cong : bytes;
  sn_tos : N; sn_tclass : N; sn_classid : N; sn_shutdown : N; sn_protocol : N; sn_mark : N;
  sn_tcp : option fields; sn_mem : option fields; sn_skmem : option fields;
  sn_vegas : option fields; sn_dctcp : option fields; sn_bbr : option fields }.

(** snapshot/snapshot.go:29-30 result := Snapshot{} with the time set *)
Definition new_snapshot (t : Z) : snapshot :=
  mksnap t 0 0 None [] 0 0 0 0 0 0 None None None None None None.

(** snapshot/snapshot.go:113-124 maybeCopy: the [size] bytes behind the returned
    pointer, and ok.  Logging and the LargeNetlinkMsgTotal metric are left out
    (also in the conversions below). *)
Definition maybe_copy (src : bytes) (size : nat) : bytes * bool :=
  if length src <? size then (src ++ repeat x00 (size - length src), true)
  else (firstn size src, length src =? size).

(** snapshot/snapshot.go:127-222: the conversions to structs (toMemInfo,
    toLinuxTCPInfo, toVegasInfo, toSockMemInfo, toDCTCPInfo, toBBRInfo), one
    function of the struct type *)
Definition to_struct (st : struct) (raw : bytes) : fields * bool :=
  let (mem, ok) := maybe_copy raw (sizeof st) in (load_struct st mem, ok).

(** snapshot/snapshot.go:157-160 CongestionAlgorithm: raw[:len(raw)-1] panics on
    an empty slice *)
Definition congestion_algorithm (raw : bytes) : outcome (bytes * bool) :=
  if length raw =? 0 then Panic else Ret (firstn (length raw - 1) raw, true).

(** snapshot/snapshot.go:162-167 toUint8 (also toTOS 170-172, toTCLASS 175-177,
    toClassID 180-182, toShutdown 192-194, toProtocol 204-207) *)
Definition to_uint8 (raw : bytes) : N * bool :=
  match raw with [] => (0%N, false) | b :: _ => (bval b, true) end.

(** snapshot/snapshot.go:209-214 toMark *)
Definition to_mark (raw : bytes) : N * bool :=
  if length raw =? 4 then (le raw, true) else (0%N, false).

(** Field assignments of the switch. (snapshot/snapshot.go:27-99) *)
Definition set_mem v r := mksnap (sn_time r) (sn_observed r) (sn_notparsed r) (sn_idm r) (sn_cong r) (sn_tos r) (sn_tclass r) (sn_classid r) (sn_shutdown r) (sn_protocol r) (sn_mark r) (sn_tcp r) v (sn_skmem r) (sn_vegas r) (sn_dctcp r) (sn_bbr r).
(** result.TCPInfo = v, in snapshot/snapshot.go:47-91 *)
Definition set_tcp v r := mksnap (sn_time r) (sn_observed r) (sn_notparsed r) (sn_idm r) (sn_cong r) (sn_tos r) (sn_tclass r) (sn_classid r) (sn_shutdown r) (sn_protocol r) (sn_mark r) v (sn_mem r) (sn_skmem r) (sn_vegas r) (sn_dctcp r) (sn_bbr r).
(** result.VegasInfo = v, in snapshot/snapshot.go:47-91 *)
Definition set_vegas v r := mksnap (sn_time r) (sn_observed r) (sn_notparsed r) (sn_idm r) (sn_cong r) (sn_tos r) (sn_tclass r) (sn_classid r) (sn_shutdown r) (sn_protocol r) (sn_mark r) (sn_tcp r) (sn_mem r) (sn_skmem r) v (sn_dctcp r) (sn_bbr r).
(** result.CongestionAlgorithm = v, in snapshot/snapshot.go:47-91 *)
Definition set_cong v r := mksnap (sn_time r) (sn_observed r) (sn_notparsed r) (sn_idm r) v (sn_tos r) (sn_tclass r) (sn_classid r) (sn_shutdown r) (sn_protocol r) (sn_mark r) (sn_tcp r) (sn_mem r) (sn_skmem r) (sn_vegas r) (sn_dctcp r) (sn_bbr r).
(** result.TOS = v, in snapshot/snapshot.go:47-91 *)
Definition set_tos v r := mksnap (sn_time r) (sn_observed r) (sn_notparsed r) (sn_idm r) (sn_cong r) v (sn_tclass r) (sn_classid r) (sn_shutdown r) (sn_protocol r) (sn_mark r) (sn_tcp r) (sn_mem r) (sn_skmem r) (sn_vegas r) (sn_dctcp r) (sn_bbr r).
(** result.TClass = v, in snapshot/snapshot.go:47-91 *)
Definition set_tclass v r := mksnap (sn_time r) (sn_observed r) (sn_notparsed r) (sn_idm r) (sn_cong r) (sn_tos r) v (sn_classid r) (sn_shutdown r) (sn_protocol r) (sn_mark r) (sn_tcp r) (sn_mem r) (sn_skmem r) (sn_vegas r) (sn_dctcp r) (sn_bbr r).
(** result.SocketMem = v, in snapshot/snapshot.go:47-91 *)
Definition set_skmem v r := mksnap (sn_time r) (sn_observed r) (sn_notparsed r) (sn_idm r) (sn_cong r) (sn_tos r) (sn_tclass r) (sn_classid r) (sn_shutdown r) (sn_protocol r) (sn_mark r) (sn_tcp r) (sn_mem r) v (sn_vegas r) (sn_dctcp r) (sn_bbr r).
(** result.Shutdown = v, in snapshot/snapshot.go:47-91 *)
Definition set_shutdown v r := mksnap (sn_time r) (sn_observed r) (sn_notparsed r) (sn_idm r) (sn_cong r) (sn_tos r) (sn_tclass r) (sn_classid r) v (sn_protocol r) (sn_mark r) (sn_tcp r) (sn_mem r) (sn_skmem r) (sn_vegas r) (sn_dctcp r) (sn_bbr r).
(** result.DCTCPInfo = v, in snapshot/snapshot.go:47-91 *)
Definition set_dctcp v r := mksnap (sn_time r) (sn_observed r) (sn_notparsed r) (sn_idm r) (sn_cong r) (sn_tos r) (sn_tclass r) (sn_classid r) (sn_shutdown r) (sn_protocol r) (sn_mark r) (sn_tcp r) (sn_mem r) (sn_skmem r) (sn_vegas r) v (sn_bbr r).
(** result.Protocol = v, in snapshot/snapshot.go:47-91 *)
Definition set_protocol v r := mksnap (sn_time r) (sn_observed r) (sn_notparsed r) (sn_idm r) (sn_cong r) (sn_tos r) (sn_tclass r) (sn_classid r) (sn_shutdown r) v (sn_mark r) (sn_tcp r) (sn_mem r) (sn_skmem r) (sn_vegas r) (sn_dctcp r) (sn_bbr r).
(** result.Mark = v, in snapshot/snapshot.go:47-91 *)
Definition set_mark v r := mksnap (sn_time r) (sn_observed r) (sn_notparsed r) (sn_idm r) (sn_cong r) (sn_tos r) (sn_tclass r) (sn_classid r) (sn_shutdown r) (sn_protocol r) v (sn_tcp r) (sn_mem r) (sn_skmem r) (sn_vegas r) (sn_dctcp r) (sn_bbr r).
(** result.BBRInfo = v, in snapshot/snapshot.go:47-91 *)
Definition set_bbr v r := mksnap (sn_time r) (sn_observed r) (sn_notparsed r) (sn_idm r) (sn_cong r) (sn_tos r) (sn_tclass r) (sn_classid r) (sn_shutdown r) (sn_protocol r) (sn_mark r) (sn_tcp r) (sn_mem r) (sn_skmem r) (sn_vegas r) (sn_dctcp r) v.
(** result.ClassID = v, in snapshot/snapshot.go:47-91 *)
Definition set_classid v r := mksnap (sn_time r) (sn_observed r) (sn_notparsed r) (sn_idm r) (sn_cong r) (sn_tos r) (sn_tclass r) v (sn_shutdown r) (sn_protocol r) (sn_mark r) (sn_tcp r) (sn_mem r) (sn_skmem r) (sn_vegas r) (sn_dctcp r) (sn_bbr r).
(** result.InetDiagMsg = v, snapshot/snapshot.go:35 *)
Definition set_idm v r := mksnap (sn_time r) (sn_observed r) (sn_notparsed r) v (sn_cong r) (sn_tos r) (sn_tclass r) (sn_classid r) (sn_shutdown r) (sn_protocol r) (sn_mark r) (sn_tcp r) (sn_mem r) (sn_skmem r) (sn_vegas r) (sn_dctcp r) (sn_bbr r).
(** result.Observed and NotFullyParsed, snapshot/snapshot.go:93-96 *)
Definition set_bits o p r := mksnap (sn_time r) o p (sn_idm r) (sn_cong r) (sn_tos r) (sn_tclass r) (sn_classid r) (sn_shutdown r) (sn_protocol r) (sn_mark r) (sn_tcp r) (sn_mem r) (sn_skmem r) (sn_vegas r) (sn_dctcp r) (sn_bbr r).

(** result.F, ok = conversion (snapshot/snapshot.go:27-99) *)
Definition into {V} (set : V -> snapshot -> snapshot) (x : V * bool) (r : snapshot) : outcome (snapshot * bool) :=
  Ret (set (fst x) r, snd x).
(** The same for a pointer field. (snapshot/snapshot.go:27-99) *)
Definition into_ptr {V} (set : option V -> snapshot -> snapshot) (x : V * bool) (r : snapshot) : outcome (snapshot * bool) :=
  Ret (set (Some (fst x)) r, snd x).

(** snapshot/snapshot.go:47-91: the switch on the attribute type.  Attributes of
    the other types are not decoded; what is counted and logged for them is in
    Metrics.v. *)
Definition decode_attr (t : nat) (raw : bytes) (r : snapshot) : outcome (snapshot * bool) :=
  if t =? INET_DIAG_MEMINFO then into_ptr set_mem (to_struct MemInfo raw) r
  else if t =? INET_DIAG_INFO then into_ptr set_tcp (to_struct LinuxTCPInfo raw) r
  else if t =? INET_DIAG_VEGASINFO then into_ptr set_vegas (to_struct VegasInfo raw) r
  else if t =? INET_DIAG_CONG then bind (congestion_algorithm raw) (fun x => into set_cong x r)
  else if t =? INET_DIAG_TOS then into set_tos (to_uint8 raw) r
  else if t =? INET_DIAG_TCLASS then into set_tclass (to_uint8 raw) r
  else if t =? INET_DIAG_SKMEMINFO then into_ptr set_skmem (to_struct SocketMemInfo raw) r
  else if t =? INET_DIAG_SHUTDOWN then into set_shutdown (to_uint8 raw) r
  else if t =? INET_DIAG_DCTCPINFO then into_ptr set_dctcp (to_struct DCTCPInfo raw) r
  else if t =? INET_DIAG_PROTOCOL then into set_protocol (to_uint8 raw) r
  else if t =? INET_DIAG_MARK then into set_mark (to_mark raw) r
  else if t =? INET_DIAG_BBRINFO then into_ptr set_bbr (to_struct BBRInfo raw) r
  else if t =? INET_DIAG_CLASS_ID then into set_classid (to_uint8 raw) r
  else Ret (r, false).

(** snapshot/snapshot.go:92 uint32(1) << uint8(t-1); t-1 is -1 for t = 0, and a
    shift by 32 or more gives 0 *)
Definition attr_bit (t : nat) : N :=
  let s := ((N.of_nat t + 255) mod 256)%N in
  if (s <? 32)%N then N.shiftl 1 s else 0%N.

(** snapshot/snapshot.go:41-97: the loop over the attributes, [t] being the
    index of the head of [attrs] *)
Fixpoint decode_attrs (t : nat) (attrs : list (option gslice)) (r : snapshot) : outcome snapshot :=
  match attrs with
  | [] => Ret r
  | None :: rest => decode_attrs (S t) rest r
  | Some raw :: rest =>
      bind (decode_attr t (vis raw) r) (fun x =>
        let (r1, ok) := x in
        let bit := attr_bit t in
        let o := N.lor (sn_observed r1) bit in
        let p := if ok then sn_notparsed r1 else N.lor (sn_notparsed r1) bit in
        decode_attrs (S t) rest (set_bits o p r1))
  end.

(** snapshot/snapshot.go:27-99 Decode *)
Definition decode (ar : archival) : outcome (option metadata * snapshot) :=
  let result := new_snapshot (ar_time ar) in
  match ar_meta ar, ar_raw ar with
  | None, None => Fail ErrEmptyRecord
  | _, _ =>
      bind (match ar_raw ar with
            | None => Ret result
            | Some raw => bind (parse_idm (Some raw)) (fun m => Ret (set_idm (Some m) result))
            end) (fun r =>
      bind (decode_attrs 0 (ar_attrs ar) r) (fun s => Ret (ar_meta ar, s)))
  end.

(** time.Date(2009, time.May, 29, 23, 59, 59, 0, time.UTC) of line 299 (snapshot/snapshot.go:298-300) *)
Definition hack_time : Z := 1243641599000000000.

(** A netlink.ArchiveReader (netlink/archival-record.go:327-331) is a state and
    a function giving the result of Next and the next state. *)
Definition reader (S : Type) := S -> outcome archival * S.

(** snapshot/snapshot.go:290-303 Reader.Next.  Comparing a time.Time with == also
    compares locations; a decoded record's time is in UTC, where it is equality
    of instants. *)
Definition snap_next {S} (next : reader S) (s : S) : outcome (option metadata * snapshot) * S :=
  match next s with
  | (Ret ar, s') =>
      let ar' := if Z.eqb (ar_time ar) zero_time
                 then mkar hack_time (ar_raw ar) (ar_attrs ar) (ar_meta ar) else ar in
      (decode ar', s')
  | (Fail e, s') => (Fail e, s')
  | (Panic, s') => (Panic, s')
  | (Diverge, s') => (Diverge, s')
  end.

(** snapshot/snapshot.go:307-329 LoadAll.  [fuel] bounds the number of turns of
    the loop; [Diverge] means it was not enough. *)
Fixpoint load_all_go {S} (fuel : nat) (next : reader S) (s : S) (meta : option metadata) (snaps : list snapshot)
  : outcome (option metadata * list snapshot) :=
  match fuel with
  | O => Diverge
  | Datatypes.S f =>
      match snap_next next s with
      | (Ret (m, sn), s') =>
          load_all_go f next s' (match m with Some _ => m | None => meta end) (snaps ++ [sn])
      | (Fail ErrEOF, _) => Ret (meta, snaps)
      | (Fail e, _) => Fail e
      | (Panic, _) => Panic
      | (Diverge, _) => Diverge
      end
  end.
(** snapshot/snapshot.go:307-329 LoadAll from its start *)
Definition load_all {S} (fuel : nat) (next : reader S) (s : S) : outcome (option metadata * list snapshot) :=
  load_all_go fuel next s None [].
