(** Model of collector/socket-monitor_linux.go and collector/collector_linux.go.
    Log output and metrics are left out. *)
From stdpp Require Import base list.
From Coq Require Import NArith ZArith.
From Verif Require Import GoBase GoTime Inetdiag Tcp Netlink Cache Saver.
Local Open Scope N_scope.

(** syscall.NLM_F_REQUEST, NLM_F_MULTI, NLM_F_DUMP, IPPROTO_TCP; unix.NLMSG_ERROR,
    NLMSG_DONE (collector/socket-monitor_linux.go:21-23, 36 and 51-66) *)
Definition NLM_F_REQUEST : N := 1.
(** syscall.NLM_F_MULTI, used at collector/socket-monitor_linux.go:66 *)
Definition NLM_F_MULTI : N := 2.
(** syscall.NLM_F_DUMP, used at collector/socket-monitor_linux.go:21 *)
Definition NLM_F_DUMP : N := 768.
(** syscall.IPPROTO_TCP, used at collector/socket-monitor_linux.go:22 *)
Definition IPPROTO_TCP : N := 6.
(** unix.NLMSG_ERROR, used at collector/socket-monitor_linux.go:54 *)
Definition NLMSG_ERROR : N := 2.
(** unix.NLMSG_DONE, used at collector/socket-monitor_linux.go:51 *)
Definition NLMSG_DONE : N := 3.

(** 1<<uint(s) (collector/socket-monitor_linux.go:23) *)
Definition shl1 (s : Z) : N := N.shiftl 1 (Z.to_N s).

(** github.com/vishvananda/netlink/nl type NetlinkRequest with the only kind of
    data added here.  [Pid] stays 0. (collector/socket-monitor_linux.go:20-38) *)
Record request := mkrequest { q_header : nlmsghdr; q_data : list reqv2 }.

(** nl.NewNetlinkRequest(proto, flags), [seq] being the next value of the
    package's counter, and AddData (collector/socket-monitor_linux.go:21 and 34) *)
Definition new_request (seq proto flags : N) : request :=
  mkrequest (mkhdr 16 proto (N.lor NLM_F_REQUEST flags) seq 0) [].
(** nl.NetlinkRequest.AddData, called at collector/socket-monitor_linux.go:34 *)
Definition add_data (q : request) (d : reqv2) : request := mkrequest (q_header q) (q_data q ++ [d]).

(** msg.IDiagExt |= (1 << (kind - 1)), a uint8 (collector/socket-monitor_linux.go:24-32) *)
Definition or_ext (kind : Z) (r : reqv2) : reqv2 :=
  mkreq (rq_family r) (rq_protocol r) (N.lor (rq_ext r) (shl1 (kind - 1)) mod 256) (rq_pad r) (rq_states r) (rq_id r).

(** collector/socket-monitor_linux.go:20-38 makeReq; [N.ldiff] is & ^ *)
Definition make_req (seq inetType : N) : request :=
  let req := new_request seq SOCK_DIAG_BY_FAMILY (N.lor NLM_F_DUMP NLM_F_REQUEST) in
  let msg := new_reqv2 inetType IPPROTO_TCP
               (N.ldiff AllFlags (N.lor (N.lor (shl1 SYN_RECV) (shl1 TIME_WAIT)) (shl1 CLOSE))) in
  let msg := or_ext (Z.of_nat INET_DIAG_MEMINFO) msg in
  let msg := or_ext (Z.of_nat INET_DIAG_INFO) msg in
  let msg := or_ext (Z.of_nat INET_DIAG_VEGASINFO) msg in
  let msg := or_ext (Z.of_nat INET_DIAG_CONG) msg in
  let msg := or_ext (Z.of_nat INET_DIAG_TCLASS) msg in
  let msg := or_ext (Z.of_nat INET_DIAG_TOS) msg in
  let msg := or_ext (Z.of_nat INET_DIAG_SKMEMINFO) msg in
  let msg := or_ext (Z.of_nat INET_DIAG_SHUTDOWN) msg in
  let req := add_data req msg in
  let h := q_header req in
  mkrequest (mkhdr (h_len h) SOCK_DIAG_BY_FAMILY (N.lor (h_flags h) (N.lor NLM_F_DUMP NLM_F_REQUEST)) (h_seq h) (h_pid h))
            (q_data req).

(** nl.NetlinkRequest.Serialize, called by NetlinkSocket.Send: the header with
    the total length, then the data (collector/socket-monitor_linux.go:102) *)
Definition serialize_request (q : request) : bytes :=
  let data := concat (map serialize_reqv2 (q_data q)) in
  let h := q_header q in
  le_enc 4 (16 + N.of_nat (length data)) ++ le_enc 2 (h_type h) ++ le_enc 2 (h_flags h)
  ++ le_enc 4 (h_seq h) ++ le_enc 4 (h_pid h) ++ data.

(** collector/socket-monitor_linux.go:40-70 processSingleMessage: the message
    (None is nil), shouldContinue and the error *)
Definition process_single (m : nlmsg) (seq pid : N) : option nlmsg * bool * option goerr :=
  let h := m_header m in
  let data := vis (m_data m) in
  if negb (N.eqb (h_seq h) seq) then (None, false, Some ErrBadSequence)
  else if negb (N.eqb (h_pid h) pid) then (None, false, Some ErrBadPid)
  else if N.eqb (h_type h) NLMSG_DONE then (None, false, None)
  else
    let tail := if N.eqb (N.land (h_flags h) NLM_F_MULTI) 0 then (Some m, false, None) else (Some m, true, None) in
    if N.eqb (h_type h) NLMSG_ERROR then
      if (length data <? 4)%nat then (None, false, Some ErrBadMsgData)
      else if N.eqb (le (sub 0 4 data)) 0 then (None, false, None)
      else tail
    else tail.

(** collector/socket-monitor_linux.go:121-135 the loop over one batch: [inl] is
    the batch exhausted with the given messages so far, [inr] a return. *)
Fixpoint one_batch (seq pid : N) (msgs : list nlmsg) (res : list nlmsg) : list nlmsg + (list nlmsg * option goerr) :=
  match msgs with
  | [] => inl res
  | m :: msgs' =>
      let '(m', cont, err) := process_single m seq pid in
      match err with
      | Some e => inr (res, Some e)
      | None =>
          let res := match m' with Some m' => res ++ [m'] | None => res end in
          if cont then one_batch seq pid msgs' res else inr (res, None)
      end
  end.

(** collector/socket-monitor_linux.go:114-136 the receive loop: one element of
    [rs] per call of s.Receive(); when there are no more it blocks. *)
Fixpoint receive_loop (seq pid : N) (rs : list (outcome (list nlmsg))) (res : list nlmsg)
  : outcome (list nlmsg * option goerr) :=
  match rs with
  | [] => Diverge
  | Ret msgs :: rs' =>
      match one_batch seq pid msgs res with
      | inl res => receive_loop seq pid rs' res
      | inr r => Ret r
      end
  | Fail e :: _ => Ret ([], Some e)
  | Panic :: _ => Panic
  | Diverge :: _ => Diverge
  end.

(** What the operating system answers to one call of OneType: nl.Subscribe,
    s.Send, s.GetPid and the successive s.Receive(). (collector/socket-monitor_linux.go:94-119) *)
Record socket := mksocket {
  so_subscribe : option goerr; so_send : bytes -> option goerr; so_pid : outcome N;
  so_receive : list (outcome (list nlmsg)) }.

(** collector/socket-monitor_linux.go:74-137 OneType: the messages and the error
    ([None] is nil).  [seq] is the sequence number NewNetlinkRequest hands out. *)
Definition one_type (so : socket) (seq inetType : N) : outcome (list nlmsg * option goerr) :=
  let req := make_req seq inetType in
  match so_subscribe so with
  | Some e => Ret ([], Some e)
  | None =>
      match so_send so (serialize_request req) with
      | Some e => Ret ([], Some e)
      | None =>
          match so_pid so with
          | Ret pid => receive_loop (h_seq (q_header req)) pid (so_receive so) []
          | Fail e => Ret ([], Some e)
          | Panic => Panic
          | Diverge => Diverge
          end
      end
  end.

(** The environment of Run in the iteration number n: the sockets, sequence
    numbers and times of its two dumps, and whether ctx.Err() is non-nil when the
    loop condition is evaluated before it. (collector/collector_linux.go:69-70) *)
Record environment := mkenv {
  v_socket : nat -> N -> socket; v_seq : nat -> N -> N; v_clock : nat -> N -> Z; v_cancelled : nat -> bool }.

(** What Run does: [ESend b] is svrChan <- b, [ELog l e] is
    cl.LogCacheStats(l, e). (collector/collector_linux.go:51 and 75) *)
Inductive event := ESend (b : block) | ELog (localCount errCount : Z).

(** collector/collector_linux.go:25-54 collectDefaultNamespace: the block sent
    and the number of sockets *)
Definition collect (v : environment) (n : nat) : outcome (block * nat) :=
  bind (one_type (v_socket v n AF_INET6) (v_seq v n AF_INET6) AF_INET6) (fun '(res6, err6) =>
  let t6 := v_clock v n AF_INET6 in
  let m6 := match err6 with Some _ => [] | None => map Some res6 end in
  bind (one_type (v_socket v n AF_INET) (v_seq v n AF_INET) AF_INET) (fun '(res4, err4) =>
  let t4 := v_clock v n AF_INET in
  let m4 := match err4 with Some _ => [] | None => map Some res4 end in
  Ret (mkblock t4 t6 m4 m6, (length res4 + length res6)%nat))).

(** collector/collector_linux.go:58-91 Run: what it has done in its first [fuel]
    iterations, and its results if it has returned.  The named results
    localCount and errCount are never assigned.  The wait for the ticker and the
    blocking of the channel send are not modelled (both end); a dump that blocks
    forever leaves Run without results. *)
Fixpoint run_go (v : environment) (reps : Z) (fuel : nat) (loops : nat) : list event * option (Z * Z) :=
  match fuel with
  | O => ([], None)
  | S fuel =>
      if ((reps =? 0)%Z || (Z.of_nat loops <? reps)%Z) && negb (v_cancelled v loops) then
        match collect v loops with
        | Ret (b, _) =>
            let stats := if (Z.of_nat loops mod 6000 =? 0)%Z then [ELog 0 0] else [] in
            let '(es, r) := run_go v reps fuel (S loops) in
            (ESend b :: stats ++ es, r)
        | _ => ([], None)
        end
      else ([], Some (0, 0)%Z)
  end.
(** collector/collector_linux.go:58-91 Run from its start *)
Definition run (v : environment) (reps : Z) (fuel : nat) : list event * option (Z * Z) := run_go v reps fuel 0.
