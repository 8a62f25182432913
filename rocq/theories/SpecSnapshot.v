(** Specification of decoding: the kernel's structures as tables of offsets
    (include/uapi/linux/tcp.h and inet_diag.h), read byte by byte. *)
From Coq Require Import Strings.String List NArith ZArith Bool Arith.
From Verif Require Import GoBase Layout Inetdiag Netlink Snapshot.
Import ListNotations.
Local Open Scope list_scope.

(** The byte at offset i, zero past the end. *)
Definition byte_at (raw : bytes) (i : nat) : N := bval (nth i raw x00).
(** The unsigned little-endian number of w bytes at offset o. *)
Fixpoint number_at (raw : bytes) (o w : nat) : N :=
  match w with
  | O => 0%N
  | S w' => (byte_at raw o + 256 * number_at raw (S o) w')%N
  end.
(** The same in two's complement. *)
Definition signed_at (raw : bytes) (o w : nat) : Z :=
  let v := Z.of_N (number_at raw o w) in
  let m := Z.of_N (256 ^ N.of_nat w) in
  if Z.ltb (2 * v) m then v else (v - m)%Z.

(** One field of a kernel structure: its name in the snapshot, its offset and
    width, and whether the snapshot shows it as a signed number. *)
Definition field_spec := (string * nat * nat * bool)%type.
Definition read_field (raw : bytes) (f : field_spec) : string * fval :=
  match f with
  | (name, o, w, sgn) => (name, VInt (if sgn then signed_at raw o w else Z.of_N (number_at raw o w)))
  end.
Definition read_table (tb : list field_spec) (raw : bytes) : fields := map (read_field raw) tb.

Local Open Scope string_scope.
(** struct tcp_info *)
Definition tcp_table : list field_spec :=
  [("State", 0, 1, false); ("CAState", 1, 1, false); ("Retransmits", 2, 1, false); ("Probes", 3, 1, false);
   ("Backoff", 4, 1, false); ("Options", 5, 1, false); ("WScale", 6, 1, false); ("AppLimited", 7, 1, false);
   ("RTO", 8, 4, false); ("ATO", 12, 4, false); ("SndMSS", 16, 4, false); ("RcvMSS", 20, 4, false);
   ("Unacked", 24, 4, false); ("Sacked", 28, 4, false); ("Lost", 32, 4, false); ("Retrans", 36, 4, false);
   ("Fackets", 40, 4, false);
   ("LastDataSent", 44, 4, false); ("LastAckSent", 48, 4, false); ("LastDataRecv", 52, 4, false);
   ("LastAckRecv", 56, 4, false);
   ("PMTU", 60, 4, false); ("RcvSsThresh", 64, 4, false); ("RTT", 68, 4, false); ("RTTVar", 72, 4, false);
   ("SndSsThresh", 76, 4, false); ("SndCwnd", 80, 4, false); ("AdvMSS", 84, 4, false);
   ("Reordering", 88, 4, false); ("RcvRTT", 92, 4, false); ("RcvSpace", 96, 4, false);
   ("TotalRetrans", 100, 4, false);
   ("PacingRate", 104, 8, true); ("MaxPacingRate", 112, 8, true); ("BytesAcked", 120, 8, true);
   ("BytesReceived", 128, 8, true); ("SegsOut", 136, 4, true); ("SegsIn", 140, 4, true);
   ("NotsentBytes", 144, 4, false); ("MinRTT", 148, 4, false); ("DataSegsIn", 152, 4, false);
   ("DataSegsOut", 156, 4, false); ("DeliveryRate", 160, 8, true); ("BusyTime", 168, 8, true);
   ("RWndLimited", 176, 8, true); ("SndBufLimited", 184, 8, true); ("Delivered", 192, 4, false);
   ("DeliveredCE", 196, 4, false); ("BytesSent", 200, 8, true); ("BytesRetrans", 208, 8, true);
   ("DSackDups", 216, 4, false); ("ReordSeen", 220, 4, false); ("RcvOooPack", 224, 4, false);
   ("SndWnd", 228, 4, false)].
(** struct inet_diag_meminfo *)
Definition mem_table : list field_spec :=
  [("Rmem", 0, 4, false); ("Wmem", 4, 4, false); ("Fmem", 8, 4, false); ("Tmem", 12, 4, false)].
(** the SK_MEMINFO_ array of sock_diag.h *)
Definition skmem_table : list field_spec :=
  [("RmemAlloc", 0, 4, false); ("Rcvbuf", 4, 4, false); ("WmemAlloc", 8, 4, false); ("Sndbuf", 12, 4, false);
   ("FwdAlloc", 16, 4, false); ("WmemQueued", 20, 4, false); ("Optmem", 24, 4, false);
   ("Backlog", 28, 4, false); ("Drops", 32, 4, false)].
(** struct tcpvegas_info *)
Definition vegas_table : list field_spec :=
  [("Enabled", 0, 4, false); ("RTTCount", 4, 4, false); ("RTT", 8, 4, false); ("MinRTT", 12, 4, false)].
(** struct tcp_dctcp_info *)
Definition dctcp_table : list field_spec :=
  [("Enabled", 0, 2, false); ("CEState", 2, 2, false); ("Alpha", 4, 4, false); ("ABEcn", 8, 4, false);
   ("ABTot", 12, 4, false)].
(** struct tcp_bbr_info: bbr_bw_lo and bbr_bw_hi are adjacent, so that the
    bandwidth is the 64-bit number at 0 *)
Definition bbr_table : list field_spec :=
  [("BW", 0, 8, true); ("MinRTT", 8, 4, false); ("PacingGain", 12, 4, false); ("CwndGain", 16, 4, false)].
Local Close Scope string_scope.

(** The bytes o .. o+n-1. *)
Definition bytes_at (raw : bytes) (o n : nat) : bytes := map (fun i => nth i raw x00) (seq o n).
(** struct inet_diag_msg *)
Definition header_at (raw : bytes) : idm :=
  mkidm (number_at raw 0 1) (number_at raw 1 1) (number_at raw 2 1) (number_at raw 3 1)
        (mksock (bytes_at raw 4 2) (bytes_at raw 6 2) (bytes_at raw 8 16) (bytes_at raw 24 16)
                (bytes_at raw 40 4) (bytes_at raw 44 8))
        (number_at raw 52 4) (number_at raw 56 4) (number_at raw 60 4) (number_at raw 64 4) (number_at raw 68 4).

(** Attribute t of a record: present in its slot, possibly empty. *)
Definition attr (ar : archival) (t : nat) : option bytes :=
  match nth_error (ar_attrs ar) t with Some (Some g) => Some (vis g) | _ => None end.
Definition attr_or (ar : archival) (t : nat) {A} (absent : A) (present : bytes -> A) : A :=
  match attr ar t with Some raw => present raw | None => absent end.

(** Sizes in bytes of the Go structs of the decoded attributes. *)
Definition struct_size (t : nat) : option nat :=
  match t with
  | 1 => Some 16 | 2 => Some 232 | 3 => Some 16 | 7 => Some 36 | 9 => Some 16 | 16 => Some 24
  | _ => None
  end.
(** Attributes read as one byte, and those that are not decoded. *)
Definition one_byte (t : nat) : bool := existsb (Nat.eqb t) [5; 6; 8; 10; 17].
Definition undecoded (t : nat) : bool := (18 <=? t) || existsb (Nat.eqb t) [0; 11; 12; 13; 14].

(** When the value of attribute t is not fully represented. *)
Definition poorly_parsed (t : nat) (raw : bytes) : Prop :=
  undecoded t = true
  \/ (exists n, struct_size t = Some n /\ n < length raw)
  \/ (one_byte t = true /\ raw = [])
  \/ (t = 15 /\ length raw <> 4).

(** The record has the parts that Decode insists on. *)
Definition acceptable (ar : archival) : Prop :=
  match ar_raw ar with
  | None => ar_meta ar <> None
  | Some raw => 72 <= length raw
  end.

(** What a decoded snapshot must contain, apart from the two bit sets. *)
Definition decoded (ar : archival) (s : snapshot) : Prop :=
  sn_time s = ar_time ar /\
  sn_idm s = option_map header_at (ar_raw ar) /\
  sn_mem s = attr_or ar 1 None (fun raw => Some (read_table mem_table raw)) /\
  sn_tcp s = attr_or ar 2 None (fun raw => Some (read_table tcp_table raw)) /\
  sn_vegas s = attr_or ar 3 None (fun raw => Some (read_table vegas_table raw)) /\
  sn_cong s = attr_or ar 4 [] (@removelast byte) /\
  sn_tos s = attr_or ar 5 0%N (fun raw => byte_at raw 0) /\
  sn_tclass s = attr_or ar 6 0%N (fun raw => byte_at raw 0) /\
  sn_skmem s = attr_or ar 7 None (fun raw => Some (read_table skmem_table raw)) /\
  sn_shutdown s = attr_or ar 8 0%N (fun raw => byte_at raw 0) /\
  sn_dctcp s = attr_or ar 9 None (fun raw => Some (read_table dctcp_table raw)) /\
  sn_protocol s = attr_or ar 10 0%N (fun raw => byte_at raw 0) /\
  sn_mark s = attr_or ar 15 0%N (fun raw => if length raw =? 4 then number_at raw 0 4 else 0%N) /\
  sn_bbr s = attr_or ar 16 None (fun raw => Some (read_table bbr_table raw)) /\
  sn_classid s = attr_or ar 17 0%N (fun raw => byte_at raw 0).

(** A reader in state s hands out the records rs and then stops with error e. *)
Inductive yields {S} (next : reader S) : S -> list archival -> goerr -> Prop :=
| yields_end s s' e : next s = (Fail e, s') -> yields next s [] e
| yields_more s s' r rs e : next s = (Ret r, s') -> yields next s' rs e -> yields next s (r :: rs) e.

(** The time that LoadAll gives to a record without one. *)
Definition timed (r : archival) : archival :=
  if Z.eqb (ar_time r) (-62135596800000000000) then mkar 1243641599000000000 (ar_raw r) (ar_attrs r) (ar_meta r) else r.

(** The last metadata in a list of records. *)
Definition last_meta (rs : list archival) : option metadata :=
  fold_left (fun m r => match ar_meta r with Some x => Some x | None => m end) rs None.

(** Decoding the record (with its time filled in) succeeds. *)
Definition decodes (r : archival) : Prop := exists x, decode (timed r) = Ret x.
