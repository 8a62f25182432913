(** Model of the table that csvtool prints: the struct tags `csv:"..."` of
    snapshot/snapshot.go, inetdiag/structs.go and tcp/tcpinfo.go, and
    gocsv.Marshal (cmd/csvtool/main.go:28-30) as far as it uses them.  gocsv and
    encoding/csv are not in the repository: their rules are taken from their
    documentation (the positions checked in cmd/csvtool/main_test.go:62-103 are
    reproduced in P_Table.v). *)
From Coq Require Import Strings.String List NArith ZArith Bool.
From Verif Require Import GoBase Layout NetIP Inetdiag Rfc3339 Snapshot CsvTool.
Import ListNotations.
Local Open Scope list_scope.

(** ** Types with tags *)
(** What gocsv tells apart about the type of a field: a struct, a pointer to a
    struct, or anything else.  time.Time has a MarshalText method, and belongs to
    the others. (snapshot/snapshot.go:225-269) *)
Inductive gtype :=
| GOther
| GStruct (fs : list (string * string * gtype))
| GPtr (fs : list (string * string * gtype)).
(** The fields of a struct: name, csv tag, type. (snapshot/snapshot.go:225-269) *)
Definition gstruct := list (string * string * gtype).
(** A field that is no struct, with its tag (tcp/tcpinfo.go:58-136, inetdiag/structs.go:129-136, 243-257 and 334-381) *)
Definition plain (x : string * string) : string * string * gtype := (fst x, snd x, GOther).

Local Open Scope string_scope.
(** tcp/tcpinfo.go:58-136 the tags of LinuxTCPInfo *)
Definition tcp_tags : list (string * string) :=
  [("State", "TCP.State"); ("CAState", "TCP.CAState"); ("Retransmits", "TCP.Retransmits"); ("Probes", "TCP.Probes");
   ("Backoff", "TCP.Backoff"); ("Options", "TCP.Options"); ("WScale", "TCP.WScale"); ("AppLimited", "TCP.AppLimited");
   ("RTO", "TCP.RTO"); ("ATO", "TCP.ATO"); ("SndMSS", "TCP.SndMSS"); ("RcvMSS", "TCP.RcvMSS");
   ("Unacked", "TCP.Unacked"); ("Sacked", "TCP.Sacked"); ("Lost", "TCP.Lost"); ("Retrans", "TCP.Retrans"); ("Fackets", "TCP.Fackets");
   ("LastDataSent", "TCP.LastDataSent"); ("LastAckSent", "TCP.LastAckSent");
   ("LastDataRecv", "TCP.LastDataRecv"); ("LastAckRecv", "TCP.LastDataRecv");
   ("PMTU", "TCP.PMTU"); ("RcvSsThresh", "TCP.RcvSsThresh"); ("RTT", "TCP.RTT"); ("RTTVar", "TCP.RTTVar");
   ("SndSsThresh", "TCP.SndSsThresh"); ("SndCwnd", "TCP.SndCwnd"); ("AdvMSS", "TCP.AdvMSS"); ("Reordering", "TCP.Reordering");
   ("RcvRTT", "TCP.RcvRTT"); ("RcvSpace", "TCP.RcvSpace"); ("TotalRetrans", "TCP.TotalRetrans");
   ("PacingRate", "TCP.PacingRate"); ("MaxPacingRate", "TCP.MaxPacingRate");
   ("BytesAcked", "TCP.BytesAcked"); ("BytesReceived", "TCP.BytesReceived"); ("SegsOut", "TCP.SegsOut"); ("SegsIn", "TCP.SegsIn");
   ("NotsentBytes", "TCP.NotsentBytes"); ("MinRTT", "TCP.MinRTT"); ("DataSegsIn", "TCP.DataSegsIn"); ("DataSegsOut", "TCP.DataSegsOut");
   ("DeliveryRate", "TCP.DeliveryRate");
   ("BusyTime", "TCP.BusyTime"); ("RWndLimited", "TCP.RWndLimited"); ("SndBufLimited", "TCP.SndBufLimited");
   ("Delivered", "TCP.Delivered"); ("DeliveredCE", "TCP.DeliveredCE");
   ("BytesSent", "TCP.BytesSent"); ("BytesRetrans", "TCP.BytesRetrans");
   ("DSackDups", "TCP.DSackDups"); ("ReordSeen", "TCP.ReordSeen"); ("RcvOooPack", "TCP.RcvOooPack"); ("SndWnd", "TCP.SndWnd")].
(** inetdiag/structs.go:334-344 the tags of SocketMemInfo *)
Definition skmem_tags : list (string * string) :=
  [("RmemAlloc", "SKMemInfo.RmemAlloc"); ("Rcvbuf", "SKMemInfo.Rcvbuf"); ("WmemAlloc", "SKMemInfo.WmemAlloc"); ("Sndbuf", "SKMemInfo.Sndbug");
   ("FwdAlloc", "SKMemInfo.FwdAlloc"); ("WmemQueued", "SKMemInfo.WmemQueued"); ("Optmem", "SKMemInfo.Optmem");
   ("Backlog", "SKMemInfo.Backlog"); ("Drops", "SKMemInfo.Drops")].
(** inetdiag/structs.go:348-353 the tags of MemInfo *)
Definition mem_tags : list (string * string) :=
  [("Rmem", "MemInfo.Rmem"); ("Wmem", "MemInfo.Wmem"); ("Fmem", "MemInfo.Fmem"); ("Tmem", "MemInfo.Tmem")].
(** inetdiag/structs.go:357-362 the tags of VegasInfo *)
Definition vegas_tags : list (string * string) :=
  [("Enabled", "Vegas.Enabled"); ("RTTCount", "Vegas.RTTCount"); ("RTT", "Vegas.RTT"); ("MinRTT", "Vegas.MinRTT")].
(** inetdiag/structs.go:366-372 the tags of DCTCPInfo *)
Definition dctcp_tags : list (string * string) :=
  [("Enabled", "DCTCP.Enabled"); ("CEState", "DCTCP.CEState"); ("Alpha", "DCTCP.Alpha"); ("ABEcn", "DCTCP.ABEcn"); ("ABTot", "DCTCP.ABTot")].
(** inetdiag/structs.go:376-381 the tags of BBRInfo *)
Definition bbr_tags : list (string * string) :=
  [("BW", "BBR.BW"); ("MinRTT", "BBR.MinRTT"); ("PacingGain", "BBR.PacingGain"); ("CwndGain", "BBR.CwndGain")].
(** inetdiag/structs.go:129-136 the tags of LinuxSockID *)
Definition sock_tags : list (string * string) :=
  [("IDiagSPort", "IDM.SockID.SPort"); ("IDiagDPort", "IDM.SockID.DPort"); ("IDiagSrc", "IDM.SockID.Src"); ("IDiagDst", "IDM.SockID.Dst");
   ("IDiagIf", "IDM.SockID.Interface"); ("IDiagCookie", "IDM.SockID.Cookie")].
(** inetdiag/structs.go:243-257 the fields of InetDiagMsg with their tags *)
Definition idm_type : gstruct :=
  [("IDiagFamily", "IDM.Family", GOther); ("IDiagState", "IDM.State", GOther); ("IDiagTimer", "IDM.Timer", GOther); ("IDiagRetrans", "IDM.Retrans", GOther);
   ("ID", "-", GStruct (map plain sock_tags));
   ("IDiagExpires", "IDM.Expires", GOther); ("IDiagRqueue", "IDM.Rqueue", GOther); ("IDiagWqueue", "IDM.Wqueue", GOther);
   ("IDiagUID", "IDM.UID", GOther); ("IDiagInode", "IDM.Inode", GOther)].
(** snapshot/snapshot.go:225-269 the fields of Snapshot with their tags *)
Definition snapshot_type : gstruct :=
  [("Timestamp", "", GOther); ("Observed", "", GOther); ("NotFullyParsed", ",omitempty", GOther);
   ("InetDiagMsg", "-", GPtr idm_type);
   ("CongestionAlgorithm", ",omitempty", GOther);
   ("TOS", ",omitempty", GOther); ("TClass", ",omitempty", GOther); ("ClassID", ",omitempty", GOther);
   ("Shutdown", ",omitempty", GOther); ("Protocol", ",omitempty", GOther); ("Mark", ",omitempty", GOther);
   ("TCPInfo", "-", GPtr (map plain tcp_tags)); ("MemInfo", "-", GPtr (map plain mem_tags)); ("SocketMem", "-", GPtr (map plain skmem_tags));
   ("VegasInfo", "-", GPtr (map plain vegas_tags)); ("DCTCPInfo", "-", GPtr (map plain dctcp_tags)); ("BBRInfo", "-", GPtr (map plain bbr_tags))].
Local Close Scope string_scope.

(** ** The columns *)
(** strings.Split(tag, ",") in gocsv (cmd/csvtool/main.go:29) *)
Fixpoint split_commas (s : bytes) : list bytes :=
  match s with
  | [] => [[]]
  | c :: r => if Byte.eqb c x2c then [] :: split_commas r
              else match split_commas r with w :: ws => (c :: w) :: ws | [] => [[c]] end
  end.
(** gocsv: the part "omitempty" is a flag, the others are the names; "-" alone means
    no column, and an empty name stands for the name of the field.  None: no
    column; else the first name (only that one is written) and the flag.
    (cmd/csvtool/main.go:29) *)
Definition column_of (name tag : string) : option (bytes * bool) :=
  let parts := split_commas (str tag) in
  let keys := filter (fun w => negb (bytes_eqb w (str "omitempty"))) parts in
  let omit := existsb (fun w => bytes_eqb w (str "omitempty")) parts in
  match keys with
  | [] => Some (str name, omit)
  | [k] => if bytes_eqb k [x2d] then None else Some (if bytes_eqb k [] then str name else k, omit)
  | k :: _ => Some (if bytes_eqb k [] then str name else k, omit)
  end.
(** gocsv getFieldInfos: a column is the way to its field, its name and the flag.
    The fields of a struct, or of the struct that a pointer points to, come first
    and have columns of their own, whatever the tag of the struct is. [i] is the
    index of the first field of [fs]. (cmd/csvtool/main.go:29) *)
Fixpoint type_infos (ty : gtype) (chain : list nat) : list (list nat * bytes * bool) :=
  let go := fix go (fs : list (string * string * gtype)) (i : nat) : list (list nat * bytes * bool) :=
    match fs with
    | [] => []
    | (name, tag, t) :: rest =>
        type_infos t (chain ++ [i]) ++
        match column_of name tag with Some (k, omit) => [(chain ++ [i], k, omit)] | None => [] end ++
        go rest (S i)
    end in
  match ty with GOther => [] | GStruct fs => go fs 0 | GPtr fs => go fs 0 end.
(** The columns for a slice of pointers to Snapshot (cmd/csvtool/main.go:28-30) *)
Definition columns : list (list nat * bytes * bool) := type_infos (GPtr snapshot_type) [].
(** The first line of the table (cmd/csvtool/main.go:28-30) *)
Definition header_row : list bytes := map (fun c => snd (fst c)) columns.

(** ** The cells *)
(** A value as gocsv walks through it: a cell with its text (None if its
    MarshalText fails) and whether it is the zero value; a struct; a pointer to a
    struct. (cmd/csvtool/main.go:29) *)
Inductive gvalue :=
| VCell (zero : bool) (text : option bytes)
| VStruct (fs : list gvalue)
| VPtr (fs : option (list gvalue)).
(** An unsigned integer (snapshot/snapshot.go:225-269, inetdiag/structs.go:243-257) *)
Definition num_cell (n : N) : gvalue := VCell (N.eqb n 0) (Some (dec n)).
(** A value with a MarshalCSV method that does not fail (inetdiag/structs.go:95-124) *)
Definition text_cell (t : bytes) : gvalue := VCell (bytes_eqb t []) (Some t).
(** The fields of one of the structs of attributes, in the order of the type; all
    of them are integers. (tcp/tcpinfo.go:58-136, inetdiag/structs.go:334-381) *)
Definition struct_value (tags : list (string * string)) (v : fields) : list gvalue :=
  map (fun x => match get_field (fst x) v with Some (VInt z) => VCell (Z.eqb z 0) (Some (decZ z)) | _ => VCell true (Some []) end) tags.
(** inetdiag/structs.go:129-136 LinuxSockID *)
Definition sock_value (id : sock) : gvalue := VStruct (map text_cell (sock_csv id)).
(** inetdiag/structs.go:243-257 InetDiagMsg *)
Definition idm_value (m : idm) : list gvalue :=
  [num_cell (idiag_family m); num_cell (idiag_state m); num_cell (idiag_timer m); num_cell (idiag_retrans m);
   sock_value (idiag_id m);
   num_cell (idiag_expires m); num_cell (idiag_rqueue m); num_cell (idiag_wqueue m); num_cell (idiag_uid m); num_cell (idiag_inode m)].

Section Table.
(** The location of each time: minutes ahead of UTC at an instant (as in Archive.v;
    UTC for what tcp-info writes). *)
Variable zone : Z -> Z.
(** Whether gocsv leaves the cell of a zero value blank when its tag says omitempty:
    both are considered. *)
Variable blanks : bool.

(** snapshot/snapshot.go:225-269 Snapshot.  Protocol (inetdiag/inetdiag.go:92) has
    no methods, and is written like the uint8 it is. *)
Definition snapshot_value (s : snapshot) : list gvalue :=
  [VCell false (marshal_time (zone (sn_time s)) (sn_time s)); num_cell (sn_observed s); num_cell (sn_notparsed s);
   VPtr (option_map idm_value (sn_idm s));
   text_cell (sn_cong s);
   num_cell (sn_tos s); num_cell (sn_tclass s); num_cell (sn_classid s);
   num_cell (sn_shutdown s); num_cell (sn_protocol s); num_cell (sn_mark s);
   VPtr (option_map (struct_value tcp_tags) (sn_tcp s)); VPtr (option_map (struct_value mem_tags) (sn_mem s));
   VPtr (option_map (struct_value skmem_tags) (sn_skmem s)); VPtr (option_map (struct_value vegas_tags) (sn_vegas s));
   VPtr (option_map (struct_value dctcp_tags) (sn_dctcp s)); VPtr (option_map (struct_value bbr_tags) (sn_bbr s))].
(** gocsv getInnerField: follow the way to the field; nothing behind a nil pointer.
    (cmd/csvtool/main.go:29) *)
Fixpoint inner_field (v : gvalue) (chain : list nat) (omit : bool) : option bytes :=
  match chain, v with
  | [], VCell zero t => if blanks && omit && zero then Some [] else t
  | [], _ => None
  | i :: rest, VStruct fs => match nth_error fs i with Some w => inner_field w rest omit | None => None end
  | i :: rest, VPtr (Some fs) => match nth_error fs i with Some w => inner_field w rest omit | None => None end
  | _ :: _, VPtr None => Some []
  | _ :: _, VCell _ _ => None
  end.
(** The cells of columns [cs], or None if one of them gives an error
    (cmd/csvtool/main.go:29) *)
Fixpoint cells (v : gvalue) (cs : list (list nat * bytes * bool)) : option (list bytes) :=
  match cs with
  | [] => Some []
  | (chain, _, omit) :: rest =>
      match inner_field v chain omit, cells v rest with Some c, Some l => Some (c :: l) | _, _ => None end
  end.
(** One line of the table (cmd/csvtool/main.go:28-30) *)
Definition row (s : snapshot) : option (list bytes) := cells (VPtr (Some (snapshot_value s))) columns.

(** ** The text *)
(** unicode.IsSpace of the first rune (encoding/csv fieldNeedsQuotes, cmd/csvtool/main.go:29) *)
Definition leading_space (s : bytes) : bool :=
  match s with
  | c :: r =>
      existsb (Byte.eqb c) [x09; x0a; x0b; x0c; x0d; x20] ||
      match c, r with
      | xc2, d :: _ => Byte.eqb d x85 || Byte.eqb d xa0
      | xe1, x9a :: x80 :: _ => true
      | xe2, x80 :: d :: _ => (128 <=? bval d)%N && (bval d <=? 138)%N || existsb (Byte.eqb d) [xa8; xa9; xaf]
      | xe2, x81 :: x9f :: _ => true
      | xe3, x80 :: x80 :: _ => true
      | _, _ => false
      end
  | [] => false
  end.
(** encoding/csv fieldNeedsQuotes (cmd/csvtool/main.go:29) *)
Definition needs_quotes (s : bytes) : bool :=
  if bytes_eqb s [] then false
  else if bytes_eqb s [x5c; x2e] then true
  else if existsb (fun c => Byte.eqb c x2c || Byte.eqb c x22 || Byte.eqb c x0d || Byte.eqb c x0a) s then true
  else leading_space s.
(** Quotation marks are doubled. (encoding/csv Writer.Write, cmd/csvtool/main.go:29) *)
Fixpoint escape (s : bytes) : bytes :=
  match s with [] => [] | c :: r => if Byte.eqb c x22 then x22 :: x22 :: escape r else c :: escape r end.
(** encoding/csv Writer.Write, one field (cmd/csvtool/main.go:29) *)
Definition write_field (s : bytes) : bytes := if needs_quotes s then x22 :: escape s ++ [x22] else s.
(** encoding/csv Writer.Write (cmd/csvtool/main.go:29); the first field has no comma
    before it *)
Fixpoint write_fields (l : list bytes) : bytes :=
  match l with [] => [] | [f] => write_field f | f :: r => write_field f ++ x2c :: write_fields r end.
(** encoding/csv Writer.Write, a record with the end of its line (cmd/csvtool/main.go:29) *)
Definition write_record (l : list bytes) : bytes := write_fields l ++ [x0a].
(** The lines until the first snapshot that cannot be written, and whether all could
    (cmd/csvtool/main.go:29) *)
Fixpoint write_rows (ss : list snapshot) : bytes * bool :=
  match ss with
  | [] => ([], true)
  | s :: rest => match row s with
                 | Some l => let (t, ok) := write_rows rest in (write_record l ++ t, ok)
                 | None => ([], false)
                 end
  end.
(** What a bufio.Writer of 4096 bytes has passed on before it is flushed: it empties
    its buffer when the buffer is full and more comes (cmd/csvtool/main.go:29) *)
Definition passed_on (t : bytes) : bytes := firstn (N.to_nat (4096 * ((N.of_nat (length t) - 1) / 4096))) t.
(** cmd/csvtool/main.go:28-30 toCSV, that is gocsv.Marshal(snapshots, wtr): the
    buffer is flushed at the end, but not after an error *)
Definition to_csv (ss : list snapshot) : bytes * bool :=
  let (t, ok) := write_rows ss in
  let out := write_record header_row ++ t in
  if ok then (out, true) else (passed_on out, false).
End Table.
