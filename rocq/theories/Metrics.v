(** Model of the Prometheus metrics that are not part of the other models: those
    of the collector (collector/socket-monitor_linux.go, collector_linux.go), of
    Decode (snapshot/snapshot.go) and of the event server.  The saver's are
    actions in Saver.v.  The functions of Collector.v and Snapshot.v are repeated
    here with the list of metric updates they make, in order; P_Metrics.v proves
    that nothing else changes. *)
From Coq Require Import Strings.String List NArith ZArith Bool Arith.
From Verif Require Import GoBase Layout Tcp Inetdiag Netlink Snapshot Collector EventName EventServer.
Import ListNotations.
Local Open Scope list_scope.

(** The updates: metrics/metrics.go:21-31 SyscallTimeHistogram and 34-40
    PollingHistogram (the observed times are left out), 46-59
    ConnectionCountHistogram, 82-86 ErrorCount, 157-162 LargeNetlinkMsgTotal,
    165-170 NetlinkNotDecoded, 172-177 FlowEventsCounter. *)
Inductive metric :=
| SyscallTime (af : bytes) | Polling | ConnectionCount (af : bytes) (n : nat)
| ErrorCount (type : bytes) | LargeNetlinkMsg (type : bytes) | NotDecoded (type : bytes) | FlowEvents (event : bytes).

(** collector/socket-monitor_linux.go:40-70 processSingleMessage *)
Definition process_single_m (m : nlmsg) (seq pid : N) : list metric * (option nlmsg * bool * option goerr) :=
  let h := m_header m in
  let data := vis (m_data m) in
  if negb (N.eqb (h_seq h) seq) then ([ErrorCount (str "wrong seq num")], (None, false, Some ErrBadSequence))
  else if negb (N.eqb (h_pid h) pid) then ([ErrorCount (str "wrong pid")], (None, false, Some ErrBadPid))
  else if N.eqb (h_type h) NLMSG_DONE then ([], (None, false, None))
  else
    let tail := if N.eqb (N.land (h_flags h) NLM_F_MULTI) 0 then (Some m, false, None) else (Some m, true, None) in
    if N.eqb (h_type h) NLMSG_ERROR then
      if (length data <? 4)%nat then ([], (None, false, Some ErrBadMsgData))
      else if N.eqb (le (sub 0 4 data)) 0 then ([], (None, false, None))
      else ([ErrorCount (str "NLMSG_ERROR")], tail)
    else ([], tail).

(** collector/socket-monitor_linux.go:121-135 the loop over one batch *)
Fixpoint one_batch_m (seq pid : N) (msgs : list nlmsg) (res : list nlmsg)
  : list metric * (list nlmsg + (list nlmsg * option goerr)) :=
  match msgs with
  | [] => ([], inl res)
  | m :: msgs' =>
      let '(u, (m', cont, err)) := process_single_m m seq pid in
      match err with
      | Some e => (u, inr (res, Some e))
      | None =>
          let res := match m' with Some m' => res ++ [m'] | None => res end in
          if cont then let (u', r) := one_batch_m seq pid msgs' res in (u ++ u', r) else (u, inr (res, None))
      end
  end.

(** collector/socket-monitor_linux.go:114-136 the receive loop; the second
    component is len(res) when OneType returns (the variable res, not the
    result: after a failed Receive the messages before it are in it) *)
Fixpoint receive_loop_m (seq pid : N) (rs : list (outcome (list nlmsg))) (res : list nlmsg)
  : list metric * nat * outcome (list nlmsg * option goerr) :=
  match rs with
  | [] => ([], 0, Diverge)
  | Ret msgs :: rs' =>
      let (u, r) := one_batch_m seq pid msgs res in
      match r with
      | inl res => let '(u', n, o) := receive_loop_m seq pid rs' res in (u ++ u', n, o)
      | inr (res, err) => (u, length res, Ret (res, err))
      end
  | Fail e :: _ => ([], length res, Ret ([], Some e))
  | Panic :: _ => ([], 0, Panic)
  | Diverge :: _ => ([], 0, Diverge)
  end.

(** collector/socket-monitor_linux.go:79-85: the switch on inetType *)
Definition af_label (inetType : N) : bytes :=
  if N.eqb inetType AF_INET then str "ipv4"
  else if N.eqb inetType AF_INET6 then str "ipv6"
  else str "unknown".

(** collector/socket-monitor_linux.go:74-137 OneType; the deferred function at
    78-88 runs when it returns *)
Definition one_type_m (so : socket) (seq inetType : N) : list metric * outcome (list nlmsg * option goerr) :=
  let deferred n := [SyscallTime (af_label inetType); ConnectionCount (af_label inetType) n] in
  let req := make_req seq inetType in
  match so_subscribe so with
  | Some e => (deferred 0, Ret ([], Some e))
  | None =>
      match so_send so (serialize_request req) with
      | Some e => (deferred 0, Ret ([], Some e))
      | None =>
          match so_pid so with
          | Ret pid =>
              let '(u, n, o) := receive_loop_m (h_seq (q_header req)) pid (so_receive so) [] in
              (match o with Ret _ => u ++ deferred n | _ => u end, o)
          | Fail e => (deferred 0, Ret ([], Some e))
          | Panic => ([], Panic)
          | Diverge => ([], Diverge)
          end
      end
  end.

(** collector/collector_linux.go:25-54 collectDefaultNamespace *)
Definition collect_m (v : environment) (n : nat) : list metric * outcome (Saver.block * nat) :=
  let '(u6, o6) := one_type_m (v_socket v n AF_INET6) (v_seq v n AF_INET6) AF_INET6 in
  match o6 with
  | Ret (res6, err6) =>
      let '(u4, o4) := one_type_m (v_socket v n AF_INET) (v_seq v n AF_INET) AF_INET in
      (u6 ++ u4,
       match o4 with
       | Ret (res4, err4) =>
           let m6 := match err6 with Some _ => [] | None => map Some res6 end in
           let m4 := match err4 with Some _ => [] | None => map Some res4 end in
           Ret (Saver.mkblock (v_clock v n AF_INET) (v_clock v n AF_INET6) m4 m6, length res4 + length res6)
       | Fail e => Fail e | Panic => Panic | Diverge => Diverge
       end)
  | Fail e => (u6, Fail e) | Panic => (u6, Panic) | Diverge => (u6, Diverge)
  end.

(** collector/collector_linux.go:70-85 the iterations of Run, the metrics only *)
Fixpoint run_metrics (v : environment) (reps : Z) (fuel : nat) (loops : nat) : list metric :=
  match fuel with
  | O => []
  | S fuel =>
      if ((reps =? 0)%Z || (Z.of_nat loops <? reps)%Z) && negb (v_cancelled v loops) then
        let '(u, o) := collect_m v loops in
        match o with
        | Ret _ => u ++ Polling :: run_metrics v reps fuel (S loops)
        | _ => u
        end
      else []
  end.

(** snapshot/snapshot.go:113-124 maybeCopy: the update it makes *)
Definition maybe_copy_m (src : bytes) (size : nat) (msgType : bytes) : list metric :=
  if length src <? size then [] else if size <? length src then [LargeNetlinkMsg msgType] else [].

(** snapshot/snapshot.go:47-91 the switch on the attribute type, with the names
    given to maybeCopy at 129, 140, 151, 188, 200 and 220 *)
Definition attr_metrics (t : nat) (raw : bytes) : list metric :=
  if t =? INET_DIAG_MEMINFO then maybe_copy_m raw (sizeof MemInfo) (str "MemInfo")
  else if t =? INET_DIAG_INFO then maybe_copy_m raw (sizeof LinuxTCPInfo) (str "TCPInfo")
  else if t =? INET_DIAG_VEGASINFO then maybe_copy_m raw (sizeof VegasInfo) (str "VegasInfo")
  else if t =? INET_DIAG_CONG then []
  else if t =? INET_DIAG_TOS then []
  else if t =? INET_DIAG_TCLASS then []
  else if t =? INET_DIAG_SKMEMINFO then maybe_copy_m raw (sizeof SocketMemInfo) (str "SockMemInfo")
  else if t =? INET_DIAG_SHUTDOWN then []
  else if t =? INET_DIAG_DCTCPINFO then maybe_copy_m raw (sizeof DCTCPInfo) (str "DCTCPInfo")
  else if t =? INET_DIAG_PROTOCOL then []
  else if t =? INET_DIAG_SKV6ONLY then [NotDecoded (str "INET_DIAG_SKV6ONLY")]
  else if t =? INET_DIAG_LOCALS then [NotDecoded (str "INET_DIAG_LOCALS")]
  else if t =? INET_DIAG_PEERS then [NotDecoded (str "INET_DIAG_PEERS")]
  else if t =? INET_DIAG_PAD then [NotDecoded (str "INET_DIAG_PAD")]
  else if t =? INET_DIAG_MARK then []
  else if t =? INET_DIAG_BBRINFO then maybe_copy_m raw (sizeof BBRInfo) (str "BBRInfo")
  else if t =? INET_DIAG_CLASS_ID then []
  else if t =? INET_DIAG_MD5SIG then []
  else [NotDecoded (dec (N.of_nat t))].

(** snapshot/snapshot.go:41-97: the loop over the attributes *)
Fixpoint decode_attrs_m (t : nat) (attrs : list (option gslice)) (r : snapshot) : list metric * outcome snapshot :=
  match attrs with
  | [] => ([], Ret r)
  | None :: rest => decode_attrs_m (S t) rest r
  | Some raw :: rest =>
      let u := attr_metrics t (vis raw) in
      match decode_attr t (vis raw) r with
      | Ret (r1, ok) =>
          let bit := attr_bit t in
          let o := N.lor (sn_observed r1) bit in
          let p := if ok then sn_notparsed r1 else N.lor (sn_notparsed r1) bit in
          let (u', x) := decode_attrs_m (S t) rest (set_bits o p r1) in (u ++ u', x)
      | Fail e => (u, Fail e) | Panic => (u, Panic) | Diverge => (u, Diverge)
      end
  end.

(** snapshot/snapshot.go:27-99 Decode *)
Definition decode_m (ar : archival) : list metric * outcome (option metadata * snapshot) :=
  let result := new_snapshot (ar_time ar) in
  match ar_meta ar, ar_raw ar with
  | None, None => ([], Fail ErrEmptyRecord)
  | _, _ =>
      match (match ar_raw ar with
             | None => Ret result
             | Some raw => bind (parse_idm (Some raw)) (fun m => Ret (set_idm (Some m) result))
             end) with
      | Ret r => let (u, x) := decode_attrs_m 0 (ar_attrs ar) r in (u, bind x (fun s => Ret (ar_meta ar, s)))
      | Fail e => ([], Fail e) | Panic => ([], Panic) | Diverge => ([], Diverge)
      end
  end.

(** eventsocket/server.go:169-186 FlowCreated and FlowDeleted: what is counted
    after the event was sent to eventC; OSubmit is the send. *)
Definition flow_metrics (o : obs) : list metric :=
  match o with
  | OSubmit e => if Z.eqb (fe_event e) Open then [FlowEvents (str "open")] else []
  | _ => []
  end.
