(** Model of inetdiag/inetdiag.go and inetdiag/structs.go. *)
From Coq Require Import Strings.String List NArith ZArith Bool.
From Verif Require Import GoBase Layout NetIP.
Import ListNotations.
Local Open Scope string_scope.
Local Open Scope list_scope.

(** inetdiag/inetdiag.go:35,38 *)
Definition AF_INET6 : N := 10.
(** inetdiag/inetdiag.go:38 *)
Definition AF_INET : N := 2.

(** inetdiag/inetdiag.go:40-62 (iota constants, as attribute indices; 0 is
    INET_DIAG_NONE) *)
Definition INET_DIAG_MEMINFO := 1.
(** inetdiag/inetdiag.go:43 *)
Definition INET_DIAG_INFO := 2.
(** inetdiag/inetdiag.go:44 *)
Definition INET_DIAG_VEGASINFO := 3.
(** inetdiag/inetdiag.go:45 *)
Definition INET_DIAG_CONG := 4.
(** inetdiag/inetdiag.go:46 *)
Definition INET_DIAG_TOS := 5.
(** inetdiag/inetdiag.go:47 *)
Definition INET_DIAG_TCLASS := 6.
(** inetdiag/inetdiag.go:48 *)
Definition INET_DIAG_SKMEMINFO := 7.
(** inetdiag/inetdiag.go:49 *)
Definition INET_DIAG_SHUTDOWN := 8.
(** inetdiag/inetdiag.go:50 *)
Definition INET_DIAG_DCTCPINFO := 9.
(** inetdiag/inetdiag.go:51 *)
Definition INET_DIAG_PROTOCOL := 10.
(** inetdiag/inetdiag.go:52 *)
Definition INET_DIAG_SKV6ONLY := 11.
(** inetdiag/inetdiag.go:53 *)
Definition INET_DIAG_LOCALS := 12.
(** inetdiag/inetdiag.go:54 *)
Definition INET_DIAG_PEERS := 13.
(** inetdiag/inetdiag.go:55 *)
Definition INET_DIAG_PAD := 14.
(** inetdiag/inetdiag.go:56 *)
Definition INET_DIAG_MARK := 15.
(** inetdiag/inetdiag.go:57 *)
Definition INET_DIAG_BBRINFO := 16.
(** inetdiag/inetdiag.go:58 *)
Definition INET_DIAG_CLASS_ID := 17.
(** inetdiag/inetdiag.go:59 *)
Definition INET_DIAG_MD5SIG := 18.
(** inetdiag/inetdiag.go:61 *)
Definition INET_DIAG_MAX := 19.

(** inetdiag/structs.go:41 *)
Definition SOCK_DIAG_BY_FAMILY : N := 20.

(** inetdiag/structs.go:129-136 type LinuxSockID (byte arrays only) *)
Definition LinuxSockID : struct :=
  [("IDiagSPort", Arr 2); ("IDiagDPort", Arr 2); ("IDiagSrc", Arr 16); ("IDiagDst", Arr 16);
   ("IDiagIf", Arr 4); ("IDiagCookie", Arr 8)].

(** inetdiag/structs.go:243-257 type InetDiagMsg *)
Definition InetDiagMsg : struct :=
  [("IDiagFamily", U8); ("IDiagState", U8); ("IDiagTimer", U8); ("IDiagRetrans", U8);
   ("ID", Arr (sizeof LinuxSockID));
   ("IDiagExpires", U32); ("IDiagRqueue", U32); ("IDiagWqueue", U32); ("IDiagUID", U32); ("IDiagInode", U32)].

(** unsafe.Offsetof a field (0 stands for no such field, which does not compile)
    (inetdiag/structs.go:57-64, 129-136 and 243-257) *)
Definition off (s : struct) (f : string) : nat := match offsetof s f with Some o => o | None => 0 end.
(** The same for InetDiagMsg, inetdiag/structs.go:243-257 *)
Definition idm_off (f : string) : nat := off InetDiagMsg f.
(** offset within InetDiagMsg of a field of ID (inetdiag/structs.go:251) *)
Definition id_off (f : string) : nat := idm_off "ID" + off LinuxSockID f.

(** netlink/netlink_linux.go:38-40 and inetdiag/structs.go:265-267 rtaAlignOf:
    (attrlen + 3) & ^3 *)
Definition rta_align (n : nat) : nat := N.to_nat (N.ldiff (N.of_nat n + 3) 3).

(** inetdiag/structs.go:275 and 293 align := rtaAlignOf(int(unsafe.Sizeof(InetDiagMsg{}))) *)
Definition idm_size : nat := rta_align (sizeof InetDiagMsg).

(** inetdiag/structs.go:273-283 SplitInetDiagMsg; None is (nil, nil).
    Only the log output is left out. *)
Definition split_inet_diag_msg (data : gslice) : option (bytes * gslice) :=
  if Nat.ltb (length (vis data)) idm_size then None
  else Some (firstn idm_size (vis data), mkslice (skipn idm_size (vis data)) (spare data)).

(** LinuxSockID and InetDiagMsg values as read through the pointer that
    Parse returns. (inetdiag/structs.go:129-136 and 243-257) *)
Record sock := mksock {
  b_sport : bytes; b_dport : bytes; b_src : bytes; b_dst : bytes; b_if : bytes; b_cookie : bytes }.
(** inetdiag/structs.go:243-257 type InetDiagMsg *)
Record idm := mkidm {
  idiag_family : N; idiag_state : N; idiag_timer : N; idiag_retrans : N;
  idiag_id : sock;
  idiag_expires : N; idiag_rqueue : N; idiag_wqueue : N; idiag_uid : N; idiag_inode : N }.

(** inetdiag/structs.go:297: the struct behind the pointer to raw[0] *)
Definition load_idm (raw : bytes) : idm :=
  {| idiag_family := le (sub (idm_off "IDiagFamily") 1 raw);
     idiag_state := le (sub (idm_off "IDiagState") 1 raw);
     idiag_timer := le (sub (idm_off "IDiagTimer") 1 raw);
     idiag_retrans := le (sub (idm_off "IDiagRetrans") 1 raw);
     idiag_id := {| b_sport := sub (id_off "IDiagSPort") 2 raw;
                    b_dport := sub (id_off "IDiagDPort") 2 raw;
                    b_src := sub (id_off "IDiagSrc") 16 raw;
                    b_dst := sub (id_off "IDiagDst") 16 raw;
                    b_if := sub (id_off "IDiagIf") 4 raw;
                    b_cookie := sub (id_off "IDiagCookie") 8 raw |};
     idiag_expires := le (sub (idm_off "IDiagExpires") 4 raw);
     idiag_rqueue := le (sub (idm_off "IDiagRqueue") 4 raw);
     idiag_wqueue := le (sub (idm_off "IDiagWqueue") 4 raw);
     idiag_uid := le (sub (idm_off "IDiagUID") 4 raw);
     idiag_inode := le (sub (idm_off "IDiagInode") 4 raw) |}.

(** inetdiag/structs.go:290-298 func (raw RawInetDiagMsg) Parse; a nil raw has
    length 0. *)
Definition raw_bytes (raw : option bytes) : bytes := match raw with Some b => b | None => [] end.
(** inetdiag/structs.go:290-298 Parse *)
Definition parse_idm (raw : option bytes) : outcome idm :=
  if Nat.ltb (length (raw_bytes raw)) idm_size then Fail ErrParseFailed
  else Ret (load_idm (raw_bytes raw)).

(** inetdiag/structs.go:196-199 Cookie, 184-193 SPort/DPort, 167-169 Interface *)
Definition cookie (id : sock) : N := le (b_cookie id).
(** inetdiag/structs.go:184-186 SPort *)
Definition sport (id : sock) : N := be (b_sport id).
(** inetdiag/structs.go:190-192 DPort *)
Definition dport (id : sock) : N := be (b_dport id).
(** inetdiag/structs.go:167-169 Interface *)
Definition interface (id : sock) : N := be (b_if id).

(** inetdiag/structs.go:210-217 isIpv6 *)
Definition is_ipv6 (a : bytes) : bool := negb (all_zero (skipn 4 a)).
(** inetdiag/structs.go:203-208, 219-225 ip/ipv4/ipv6: net.IPv4(..).To4() is the
    4-byte form. *)
Definition ip (a : bytes) : bytes := if is_ipv6 a then a else firstn 4 a.
(** inetdiag/structs.go:172-179 SrcIP, DstIP *)
Definition src_ip (id : sock) : bytes := ip (b_src id).
(** inetdiag/structs.go:177-179 DstIP *)
Definition dst_ip (id : sock) : bytes := ip (b_dst id).

(** inetdiag/structs.go:139-146 type SockID *)
Record sockid := mksockid {
  sid_sport : N; sid_dport : N; sid_src : bytes; sid_dst : bytes; sid_if : N; sid_cookie : Z }.

(** inetdiag/structs.go:154-164 GetSockID *)
Definition get_sockid (id : sock) : sockid :=
  {| sid_sport := sport id; sid_dport := dport id; sid_src := ip_string (src_ip id); sid_dst := ip_string (dst_ip id);
     sid_if := interface id; sid_cookie := to_int64 (cookie id) |}.
(** inetdiag/structs.go:149-151 CookieUint64 *)
Definition cookie_uint64 (s : sockid) : N := of_int64 (sid_cookie s).

(** Overwrite the [length v] bytes of [l] at offset [o] (in-place store). (inetdiag/structs.go:319-323) *)
Definition store (o : nat) (v : bytes) (l : bytes) : bytes :=
  firstn o l ++ v ++ skipn (o + length v) l.

(** inetdiag/structs.go:308-329 Anonymize.  [anon] is IPAnonymizer.IP seen as
    the function from the old to the new contents of the slice it is given. *)
Definition anonymize (anon : bytes -> bytes) (raw : bytes) : outcome bytes :=
  match parse_idm (Some raw) with
  | Ret m =>
      let s := id_off "IDiagSrc" in
      let d := id_off "IDiagDst" in
      if N.eqb (idiag_family m) AF_INET6 then
        let raw1 := store s (anon (sub s 16 raw)) raw in
        Ret (store d (anon (sub d 16 raw1)) raw1)
      else if N.eqb (idiag_family m) AF_INET then
        let raw1 := store s (anon (sub s 4 raw)) raw in
        Ret (store d (anon (sub d 4 raw1)) raw1)
      else Fail ErrUnknownAF
  | Fail e => Fail e
  | Panic => Panic
  | Diverge => Diverge
  end.

(** inetdiag/structs.go:57-64 type ReqV2 *)
Definition ReqV2 : struct :=
  [("SDiagFamily", U8); ("SDiagProtocol", U8); ("IDiagExt", U8); ("Pad", U8);
   ("IDiagStates", U32); ("ID", Arr (sizeof LinuxSockID))].
(** inetdiag/structs.go:57-64 values of type ReqV2 *)
Record reqv2 := mkreq { rq_family : N; rq_protocol : N; rq_ext : N; rq_pad : N; rq_states : N; rq_id : bytes }.

(** inetdiag/structs.go:82-88 NewReqV2 (uint8/uint32 parameters) *)
Definition new_reqv2 (family protocol states : N) : reqv2 :=
  mkreq (family mod 256) (protocol mod 256) 0 0 (states mod 4294967296) (repeat x00 (sizeof LinuxSockID)).
(** inetdiag/structs.go:72-74 Serialize: the memory image of the struct *)
Definition serialize_reqv2 (r : reqv2) : bytes :=
  le_enc 1 (rq_family r) ++ le_enc 1 (rq_protocol r) ++ le_enc 1 (rq_ext r) ++ le_enc 1 (rq_pad r)
  ++ le_enc 4 (rq_states r) ++ rq_id r.
(** inetdiag/structs.go:77-79 Len *)
Definition len_reqv2 : nat := sizeof ReqV2.

(** inetdiag/structs.go:334-344 type SocketMemInfo *)
Definition SocketMemInfo : struct :=
  [("RmemAlloc", U32); ("Rcvbuf", U32); ("WmemAlloc", U32); ("Sndbuf", U32); ("FwdAlloc", U32);
   ("WmemQueued", U32); ("Optmem", U32); ("Backlog", U32); ("Drops", U32)].
(** inetdiag/structs.go:348-353 type MemInfo *)
Definition MemInfo : struct := [("Rmem", U32); ("Wmem", U32); ("Fmem", U32); ("Tmem", U32)].
(** inetdiag/structs.go:357-362 type VegasInfo *)
Definition VegasInfo : struct := [("Enabled", U32); ("RTTCount", U32); ("RTT", U32); ("MinRTT", U32)].
(** inetdiag/structs.go:366-372 type DCTCPInfo *)
Definition DCTCPInfo : struct :=
  [("Enabled", U16); ("CEState", U16); ("Alpha", U32); ("ABEcn", U32); ("ABTot", U32)].
(** inetdiag/structs.go:376-381 type BBRInfo *)
Definition BBRInfo : struct := [("BW", I64); ("MinRTT", U32); ("PacingGain", U32); ("CwndGain", U32)].
