(** What the collector should do, in terms of the messages the kernel sends. *)
From stdpp Require Import base list.
From Coq Require Import NArith ZArith.
From Verif Require Import GoBase Netlink Saver Collector.

(** The replies to a dump as one sequence: a message, or a failing Receive. *)
Inductive reply := Message (m : nlmsg) | ReceiveFails (e : goerr).
Inductive replies : list (outcome (list nlmsg)) -> list reply -> Prop :=
| rp_end : replies [] []
| rp_batch ms rs l : replies rs l -> replies (Ret ms :: rs) (map Message ms ++ l)
| rp_fails e rs : replies (Fail e :: rs) [ReceiveFails e].

(** The first four bytes of the payload: the error code of an NLMSG_ERROR. *)
Definition code (m : nlmsg) (a b c d : byte) : Prop := exists rest, vis (m_data m) = a :: b :: c :: d :: rest.

(** A message for this request which is part of a multi-part answer that goes on. *)
Definition part (seq pid : N) (m : nlmsg) : Prop :=
  let h := m_header m in
  h_seq h = seq /\ h_pid h = pid /\ h_type h <> 3%N
  /\ (h_type h = 2%N -> exists a b c d, code m a b c d /\ ~ (a = x00 /\ b = x00 /\ c = x00 /\ d = x00))
  /\ N.testbit (h_flags h) 1 = true.

(** How the first reply that is not such a part ends the dump: from the messages
    received before it to the result. *)
Inductive ends (seq pid : N) (before : list nlmsg) : reply -> list nlmsg -> option goerr -> Prop :=
| end_receive e : ends seq pid before (ReceiveFails e) [] (Some e)
| end_seq m : h_seq (m_header m) <> seq -> ends seq pid before (Message m) before (Some ErrBadSequence)
| end_pid m : h_seq (m_header m) = seq -> h_pid (m_header m) <> pid ->
    ends seq pid before (Message m) before (Some ErrBadPid)
| end_done m : h_seq (m_header m) = seq -> h_pid (m_header m) = pid -> h_type (m_header m) = 3%N ->
    ends seq pid before (Message m) before None
| end_ack m : h_seq (m_header m) = seq -> h_pid (m_header m) = pid -> h_type (m_header m) = 2%N ->
    code m x00 x00 x00 x00 -> ends seq pid before (Message m) before None
| end_short m : h_seq (m_header m) = seq -> h_pid (m_header m) = pid -> h_type (m_header m) = 2%N ->
    length (vis (m_data m)) < 4 -> ends seq pid before (Message m) before (Some ErrBadMsgData)
| end_error m a b c d : h_seq (m_header m) = seq -> h_pid (m_header m) = pid -> h_type (m_header m) = 2%N ->
    code m a b c d -> ~ (a = x00 /\ b = x00 /\ c = x00 /\ d = x00) -> N.testbit (h_flags (m_header m)) 1 = false ->
    ends seq pid before (Message m) (before ++ [m]) None
| end_single m : h_seq (m_header m) = seq -> h_pid (m_header m) = pid ->
    h_type (m_header m) <> 2%N -> h_type (m_header m) <> 3%N -> N.testbit (h_flags (m_header m)) 1 = false ->
    ends seq pid before (Message m) (before ++ [m]) None.

(** The result of a dump given its replies. *)
Inductive dump (seq pid : N) (l : list reply) (res : list nlmsg) (err : option goerr) : Prop :=
  mkdump before x after :
    l = map Message before ++ x :: after -> Forall (part seq pid) before -> ends seq pid before x res err ->
    dump seq pid l res err.

(** The inet_diag dump request for one family, byte by byte: struct nlmsghdr
    (length 72, type 20, NLM_F_REQUEST | NLM_F_DUMP, sequence number, port 0),
    then struct inet_diag_req_v2 (family, protocol TCP, extensions 1..8, padding,
    states, an empty inet_diag_sockid). *)
Definition dump_request (seq family : N) : bytes :=
  [x48; x00; x00; x00;  x14; x00;  x01; x03] ++ le_enc 4 seq ++ [x00; x00; x00; x00]
  ++ [byte_of family; x06; xff; x00;  x37; x0f; x00; x00] ++ repeat x00 48.

(** The socket could be opened, the request was sent and [pid] is its port. *)
Definition opened (so : socket) (request : bytes) (pid : N) : Prop :=
  so_subscribe so = None /\ so_send so request = None /\ so_pid so = Ret pid.

(** A family of a block: the messages of a successful dump, nothing otherwise. *)
Inductive family_of : list nlmsg -> option goerr -> list (option nlmsg) -> Prop :=
| fam_ok ms : family_of ms None (map Some ms)
| fam_bad ms e : family_of ms (Some e) [].

(** The block of iteration n. *)
Definition block_of (v : environment) (n : nat) (b : block) : Prop :=
  exists ms6 e6 ms4 e4,
    one_type (v_socket v n 10) (v_seq v n 10) 10 = Ret (ms6, e6)
    /\ one_type (v_socket v n 2) (v_seq v n 2) 2 = Ret (ms4, e4)
    /\ family_of ms6 e6 (V6Messages b) /\ family_of ms4 e4 (V4Messages b)
    /\ V6Time b = v_clock v n 10 /\ V4Time b = v_clock v n 2.

(** Iteration n is due: it is within the number of repetitions and the context
    has not been cancelled. *)
Definition due (v : environment) (reps : Z) (n : nat) : Prop :=
  (reps = 0 \/ Z.of_nat n < reps)%Z /\ v_cancelled v n = false.

Definition sent (es : list event) : list block :=
  flat_map (fun e => match e with ESend b => [b] | ELog _ _ => [] end) es.
Definition logged (es : list event) : list (Z * Z) :=
  flat_map (fun e => match e with ESend _ => [] | ELog l c => [(l, c)] end) es.
