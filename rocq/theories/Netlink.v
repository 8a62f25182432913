(** Model of netlink/archival-record.go and netlink/netlink_linux.go (parsing,
    exclusion, comparison and statistics; reading files is in Reader.v). *)
From Coq Require Import Strings.String List NArith ZArith Bool Arith.
From Verif Require Import GoBase Layout Tcp NetIP Inetdiag.
Import ListNotations.
Local Open Scope string_scope.
Local Open Scope list_scope.

(** netlink/archival-record.go:29-33 type Metadata.  Times are nanoseconds
    since the Unix epoch (time.Time without location and monotonic clock). *)
Record metadata := mkmeta { md_uuid : bytes; md_seq : Z; md_start : Z }.

(** netlink/archival-record.go:36-50 type ArchivalRecord.  [None] is a nil
    slice; a nil Attributes slice and an empty one are not distinguished (the
    code only looks at its length). *)
Record archival := mkar {
  ar_time : Z;
  ar_raw : option bytes;
  ar_attrs : list (option gslice);
  ar_meta : option metadata }.

(** netlink/archival-record.go:53-59 type ExcludeConfig.  A Go map[K]bool is its
    lookup function (missing keys read as false), [None] is the nil map. *)
Record exclude_config := mkex {
  ex_local : bool;
  ex_srcports : option (N -> bool);
  ex_dstips : option (bytes -> bool) }.

(** netlink/archival-record.go:53-59 &ExcludeConfig{} *)
Definition no_exclude : exclude_config := mkex false None None.

(** m[k] = true on a possibly nil map that is allocated first. (netlink/archival-record.go:62-94) *)
Definition map_of {K} (m : option (K -> bool)) : K -> bool :=
  match m with Some f => f | None => fun _ => false end.
(** The assignments at netlink/archival-record.go:67-70 and 80-92 *)
Definition set_true {K} (eqb : K -> K -> bool) (k : K) (m : option (K -> bool)) : option (K -> bool) :=
  Some (fun x => if eqb x k then true else map_of m x).

(** strconv.ParseUint(s, 10, 16): digits are consumed left to right, the first
    non-digit is a syntax error, the first value above 65535 a range error.
    (used by AddSrcPort, netlink/archival-record.go:62-72) *)
Fixpoint parse_uint16 (n : N) (s : bytes) : outcome N :=
  match s with
  | [] => Ret n
  | b :: r => if is_dig b
              then let n' := (n * 10 + (bval b - 48))%N in
                   if N.ltb 65535 n' then Fail ErrRange else parse_uint16 n' r
              else Fail ErrSyntax
  end.
(** strconv.ParseInt(s, 10, 16): optional sign, range [-32768, 32767].
    (used by AddSrcPort, netlink/archival-record.go:62-72) *)
Definition parse_int16 (s : bytes) : outcome Z :=
  let body neg t :=
    match t with
    | [] => Fail ErrSyntax
    | _ => bind (parse_uint16 0 t) (fun un =>
             if negb neg && N.leb 32768 un then Fail ErrRange
             else if neg && N.ltb 32768 un then Fail ErrRange
             else Ret (if neg then (- Z.of_N un)%Z else Z.of_N un))
    end in
  match s with
  | [] => Fail ErrSyntax
  | b :: r => if N.eqb (bval b) 43 then body false r
              else if N.eqb (bval b) 45 then body true r
              else body false s
  end.

(** Conversion uint16(i) (netlink/archival-record.go:62-72) *)
Definition u16_of_Z (z : Z) : N := Z.to_N (z mod 65536).

(** netlink/archival-record.go:62-72 AddSrcPort *)
Definition add_src_port (ex : exclude_config) (port : bytes) : outcome exclude_config :=
  bind (parse_int16 port) (fun i =>
    Ret (mkex (ex_local ex) (set_true N.eqb (u16_of_Z i) (ex_srcports ex)) (ex_dstips ex))).

(** netlink/archival-record.go:75-94 AddDstIP *)
Definition dst_key (ip : bytes) : bytes :=
  match to4 ip with
  | Some _ => skipn 12 ip ++ repeat x00 12
  | None => ip
  end.
(** netlink/archival-record.go:75-94 AddDstIP *)
Definition add_dst_ip (ex : exclude_config) (dst : bytes) : outcome exclude_config :=
  match parse_ip dst with
  | None => Fail ErrInvalidIP
  | Some ip => Ret (mkex (ex_local ex) (ex_srcports ex) (set_true bytes_eqb (dst_key ip) (ex_dstips ex)))
  end.

(** syscall.NlMsghdr and syscall.NetlinkMessage (netlink/netlink_linux.go:29-30) *)
Record nlmsghdr := mkhdr { h_len : N; h_type : N; h_flags : N; h_seq : N; h_pid : N }.
(** syscall.NetlinkMessage, netlink/netlink_linux.go (netlink/netlink_linux.go:30) *)
Record nlmsg := mkmsg { m_header : nlmsghdr; m_data : gslice }.

(** syscall.NetlinkRouteAttr (netlink/netlink_linux.go:31-32) *)
Record rtattr := mkattr { rta_len : N; rta_type : N; rta_value : gslice }.

(** netlink/netlink_linux.go:20-25 *)
Definition SizeofRtAttr : nat := 4.

(** netlink/netlink_linux.go:42-48 netlinkRouteAttrAndValue: length, type, the
    bytes after the header, and the aligned length. *)
Definition route_attr_and_value (b : gslice) : outcome (N * N * gslice * nat) :=
  let alen := le (sub 0 2 (vis b)) in
  let atype := le (sub 2 2 (vis b)) in
  if (N.to_nat alen <? SizeofRtAttr)%nat || (length (vis b) <? N.to_nat alen)%nat
  then Fail EINVAL
  else Ret (alen, atype, mkslice (skipn SizeofRtAttr (vis b)) (spare b), rta_align (N.to_nat alen)).

(** Go slice expressions s[:hi] (hi may reach into the capacity) and s[lo:].
    (netlink/archival-record.go:98-110, inetdiag/structs.go:282) *)
Definition slice_to (s : gslice) (hi : nat) : outcome gslice :=
  let m := vis s ++ spare s in
  if (length m <? hi)%nat then Panic else Ret (mkslice (firstn hi m) (skipn hi m)).
(** s[lo:] (netlink/archival-record.go:98-110, inetdiag/structs.go:282) *)
Definition slice_from (s : gslice) (lo : nat) : outcome gslice :=
  if (length (vis s) <? lo)%nat then Panic else Ret (mkslice (skipn lo (vis s)) (spare s)).
(** s[lo:hi] as the bytes it denotes (netlink/archival-record.go:98-110) *)
Definition slice_bytes (s : gslice) (lo hi : nat) : outcome bytes :=
  let m := vis s ++ spare s in
  if (hi <? lo)%nat || (length m <? hi)%nat then Panic else Ret (sub lo (hi - lo) m).

(** netlink/archival-record.go:98-110 ParseRouteAttr.  [fuel] bounds the loop
    (each turn consumes at least four bytes). *)
Fixpoint parse_route_attr_go (fuel : nat) (b : gslice) (attrs : list rtattr) : outcome (list rtattr) :=
  if (length (vis b) <? SizeofRtAttr)%nat then Ret attrs
  else match fuel with
       | O => Diverge
       | S fuel' =>
         bind (route_attr_and_value b) (fun x =>
           match x with
           | (alen, atype, vbuf, aligned) =>
             bind (slice_to vbuf (N.to_nat alen - SizeofRtAttr)) (fun v =>
             bind (slice_from b aligned) (fun b' =>
               parse_route_attr_go fuel' b' (attrs ++ [mkattr alen atype v])))
           end)
       end.
(** netlink/archival-record.go:98-110 ParseRouteAttr *)
Definition parse_route_attr (b : gslice) : outcome (list rtattr) :=
  parse_route_attr_go (length (vis b)) b [].

(** netlink/archival-record.go:201-203 isLocal *)
Definition is_local (addr : bytes) : bool :=
  is_loopback addr || is_link_local_unicast addr || is_multicast addr || is_unspecified addr.

(** netlink/archival-record.go:124-144: the exclusion tests. *)
Definition excluded (ex : exclude_config) (m : idm) : bool :=
  map_of (ex_srcports ex) (sport (idiag_id m))
  || (ex_local ex && (is_local (src_ip (idiag_id m)) || is_local (dst_ip (idiag_id m))))
  || map_of (ex_dstips ex) (b_dst (idiag_id m)).

(** l[i] = v, as at netlink/archival-record.go:170 *)
Fixpoint set_nth {A} (i : nat) (v : A) (l : list A) : list A :=
  match l, i with
  | [], _ => []
  | _ :: r, O => v :: r
  | x :: r, S i' => x :: set_nth i' v r
  end.

(** netlink/archival-record.go:149-171: largest type (capped), then the slots. *)
Definition max_attr_type (attrs : list rtattr) : N :=
  fold_left (fun m a => if N.ltb m (rta_type a) then rta_type a else m) attrs 0%N.
(** netlink/archival-record.go:156-158 *)
Definition cap_attr_type (m : N) : N :=
  if N.ltb (2 * N.of_nat INET_DIAG_MAX) m then (2 * N.of_nat INET_DIAG_MAX)%N else m.
(** netlink/archival-record.go:159-171 *)
Definition fill_slots (mx : N) (attrs : list rtattr) : list (option gslice) :=
  fold_left (fun slots a => if N.ltb mx (rta_type a) then slots
                            else set_nth (N.to_nat (rta_type a)) (Some (rta_value a)) slots)
            attrs (repeat None (N.to_nat mx + 1)).

(** netlink/archival-record.go:116-173 MakeArchivalRecord: [Ret None] is
    (nil, nil), an excluded connection.  Logging is left out. *)
Definition make_archival_record (msg : nlmsg) (ex : option exclude_config) : outcome (option archival) :=
  if negb (N.eqb (h_type (m_header msg)) 20) then Fail ErrNotType20
  else match split_inet_diag_msg (m_data msg) with
  | None => Fail ErrParseFailed
  | Some (raw, attrBytes) =>
    bind (match ex with
          | None => Ret false
          | Some e => bind (parse_idm (Some raw)) (fun m => Ret (excluded e m))
          end) (fun skip =>
    if skip then Ret None
    else bind (parse_route_attr attrBytes) (fun attrs =>
         Ret (Some (mkar zero_time (Some raw) (fill_slots (cap_attr_type (max_attr_type attrs)) attrs) None))))
  end.

(** netlink/archival-record.go:176-190 type ChangeType *)
Inductive change :=
| NoMajorChange | IDiagStateChange | NoTCPInfo | NewAttribute | LostAttribute | AttributeLength
| StateOrCounterChange | PacketCountChange | PreviousWasNil | Other.

(** netlink/archival-record.go:193-199 *)
Definition lastDataSentOffset := tcp_offset "LastDataSent".
(** netlink/archival-record.go:193-199 *)
Definition pmtuOffset := tcp_offset "PMTU".
(** netlink/archival-record.go:193-199 *)
Definition busytimeOffset := tcp_offset "BusyTime".
(** netlink/archival-record.go:193-199 *)
Definition bytesReceivedOffset := tcp_offset "BytesReceived".
(** netlink/archival-record.go:193-199 *)
Definition bytesSentOffset := tcp_offset "BytesSent".

(** netlink/archival-record.go:270-298: the loop over the attribute slots, both
    lists having the same length; [tp] is the slot number. *)
Fixpoint compare_slots (tp : nat) (prev cur : list (option gslice)) : change :=
  match prev with
  | [] => NoMajorChange
  | a :: prev' =>
    match cur with
    | [] => LostAttribute
    | b :: cur' =>
      if Nat.eqb tp INET_DIAG_INFO then compare_slots (S tp) prev' cur'
      else match a, b with
           | None, Some _ => NewAttribute
           | Some _, None => LostAttribute
           | None, None => compare_slots (S tp) prev' cur'
           | Some a, Some b =>
             if negb (Nat.eqb (length (vis a)) (length (vis b))) then AttributeLength
             else if negb (bytes_eqb (vis a) (vis b)) then Other
             else compare_slots (S tp) prev' cur'
           end
    end
  end.

(** netlink/archival-record.go:220-301 Compare.  [Fail] stands for the pair
    (NoMajorChange, ErrParseFailed). *)
Definition compare (pm : archival) (previous : option archival) : outcome change :=
  match previous with
  | None => Ret PreviousWasNil
  | Some prev =>
    bind (parse_idm (ar_raw prev)) (fun prevIDM =>
    bind (parse_idm (ar_raw pm)) (fun pmIDM =>
    if negb (N.eqb (idiag_state prevIDM) (idiag_state pmIDM)) then Ret IDiagStateChange
    else if (length (ar_attrs prev) <=? INET_DIAG_INFO)%nat || (length (ar_attrs pm) <=? INET_DIAG_INFO)%nat
    then Ret NoTCPInfo
    else match nth INET_DIAG_INFO (ar_attrs prev) None, nth INET_DIAG_INFO (ar_attrs pm) None with
    | Some a, Some b =>
      bind (slice_bytes a pmtuOffset busytimeOffset) (fun a1 =>
      bind (slice_bytes b pmtuOffset busytimeOffset) (fun b1 =>
      if negb (bytes_eqb a1 b1) then Ret StateOrCounterChange
      else
      bind (slice_bytes a 0 lastDataSentOffset) (fun a2 =>
      bind (slice_bytes b 0 lastDataSentOffset) (fun b2 =>
      if negb (bytes_eqb a2 b2) then Ret StateOrCounterChange
      else if (length (ar_attrs prev) <? length (ar_attrs pm))%nat then Ret NewAttribute
      else if (length (ar_attrs pm) <? length (ar_attrs prev))%nat then Ret LostAttribute
      else Ret (compare_slots 0 (ar_attrs prev) (ar_attrs pm))))))
    | _, _ => Ret NoTCPInfo
    end))
  end.

(** netlink/archival-record.go:395-397 HasDiagInfo *)
Definition has_diag_info (pm : archival) : bool := (INET_DIAG_INFO <? length (ar_attrs pm))%nat.

(** len of a slice that may be nil (netlink/archival-record.go:220-301) *)
Definition len_opt (s : option gslice) : nat := match s with Some x => length (vis x) | None => 0 end.
(** The bytes of a slice that may be nil. (netlink/archival-record.go:220-301) *)
Definition vis_opt (s : option gslice) : bytes := match s with Some x => vis x | None => [] end.

(** netlink/archival-record.go:403-416 GetStats: (sent, received) *)
Definition get_stats (pm : archival) : N * N :=
  if (length (ar_attrs pm) <=? INET_DIAG_INFO)%nat then (0, 0)%N
  else let raw := nth INET_DIAG_INFO (ar_attrs pm) None in
       if (len_opt raw <? bytesSentOffset + 8)%nat || (len_opt raw <? bytesReceivedOffset + 8)%nat then (0, 0)%N
       else (le (sub bytesSentOffset 8 (vis_opt raw)), le (sub bytesReceivedOffset 8 (vis_opt raw))).
