(** Model of tcp/tcpinfo.go. *)
From Coq Require Import Strings.String List NArith ZArith.
From Verif Require Import GoBase Layout.
Import ListNotations.
Local Open Scope string_scope.
Local Open Scope list_scope.

(** tcp/tcpinfo.go:14-27 *)
Definition INVALID : Z := 0.
(** tcp/tcpinfo.go:16 *)
Definition ESTABLISHED : Z := 1.
(** tcp/tcpinfo.go:17 *)
Definition SYN_SENT : Z := 2.
(** tcp/tcpinfo.go:18 *)
Definition SYN_RECV : Z := 3.
(** tcp/tcpinfo.go:19 *)
Definition FIN_WAIT1 : Z := 4.
(** tcp/tcpinfo.go:20 *)
Definition FIN_WAIT2 : Z := 5.
(** tcp/tcpinfo.go:21 *)
Definition TIME_WAIT : Z := 6.
(** tcp/tcpinfo.go:22 *)
Definition CLOSE : Z := 7.
(** tcp/tcpinfo.go:23 *)
Definition CLOSE_WAIT : Z := 8.
(** tcp/tcpinfo.go:24 *)
Definition LAST_ACK : Z := 9.
(** tcp/tcpinfo.go:25 *)
Definition LISTEN : Z := 10.
(** tcp/tcpinfo.go:26 *)
Definition CLOSING : Z := 11.

(** tcp/tcpinfo.go:30 *)
Definition AllFlags : N := 4095.

(** tcp/tcpinfo.go:32-45 (the map stateName) *)
Definition stateName : list (Z * string) :=
  [(0%Z, "INVALID"); (1%Z, "ESTABLISHED"); (2%Z, "SYN_SENT"); (3%Z, "SYN_RECV");
   (4%Z, "FIN_WAIT1"); (5%Z, "FIN_WAIT2"); (6%Z, "TIME_WAIT"); (7%Z, "CLOSE");
   (8%Z, "CLOSE_WAIT"); (9%Z, "LAST_ACK"); (10%Z, "LISTEN"); (11%Z, "CLOSING")].

(** tcp/tcpinfo.go:47-53 func (x State) String *)
Definition state_string (x : Z) : bytes :=
  match find (fun e => Z.eqb (fst e) x) stateName with
  | Some (_, s) => str s
  | None => str "UNKNOWN_STATE_" ++ decZ x
  end.

(** tcp/tcpinfo.go:58-136 type LinuxTCPInfo *)
Definition LinuxTCPInfo : struct :=
  [("State", U8); ("CAState", U8); ("Retransmits", U8); ("Probes", U8); ("Backoff", U8);
   ("Options", U8); ("WScale", U8); ("AppLimited", U8);
   ("RTO", U32); ("ATO", U32); ("SndMSS", U32); ("RcvMSS", U32);
   ("Unacked", U32); ("Sacked", U32); ("Lost", U32); ("Retrans", U32); ("Fackets", U32);
   ("LastDataSent", U32); ("LastAckSent", U32); ("LastDataRecv", U32); ("LastAckRecv", U32);
   ("PMTU", U32); ("RcvSsThresh", U32); ("RTT", U32); ("RTTVar", U32); ("SndSsThresh", U32);
   ("SndCwnd", U32); ("AdvMSS", U32); ("Reordering", U32);
   ("RcvRTT", U32); ("RcvSpace", U32); ("TotalRetrans", U32);
   ("PacingRate", I64); ("MaxPacingRate", I64);
   ("BytesAcked", I64); ("BytesReceived", I64); ("SegsOut", I32); ("SegsIn", I32);
   ("NotsentBytes", U32); ("MinRTT", U32); ("DataSegsIn", U32); ("DataSegsOut", U32);
   ("DeliveryRate", I64);
   ("BusyTime", I64); ("RWndLimited", I64); ("SndBufLimited", I64);
   ("Delivered", U32); ("DeliveredCE", U32);
   ("BytesSent", I64); ("BytesRetrans", I64);
   ("DSackDups", U32); ("ReordSeen", U32); ("RcvOooPack", U32); ("SndWnd", U32)].

(** unsafe.Offsetof for a field that exists. (netlink/archival-record.go:193-199 and 403-416) *)
Definition tcp_offset (f : string) : nat := match offsetof LinuxTCPInfo f with Some o => o | None => 0 end.
