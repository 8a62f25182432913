(** What the metrics should say. *)
From Coq Require Import Strings.String List NArith ZArith Bool Arith.
From Verif Require Import GoBase Netlink SpecSnapshot Saver Collector SpecCollector Metrics.
Import ListNotations.
Local Open Scope list_scope.

(** How a reply of the kernel to a dump is counted: the labels of
    tcpinfo_error_total, and whether (1) or not (0) it is one of the messages of
    tcpinfo_connection_count_histogram. *)
Inductive charged (seq pid : N) : reply -> list string -> nat -> Prop :=
| ch_fails e : charged seq pid (ReceiveFails e) [] 0
| ch_seq m : h_seq (m_header m) <> seq -> charged seq pid (Message m) ["wrong seq num"%string] 0
| ch_pid m : h_seq (m_header m) = seq -> h_pid (m_header m) <> pid -> charged seq pid (Message m) ["wrong pid"%string] 0
| ch_end m : h_seq (m_header m) = seq -> h_pid (m_header m) = pid ->
    h_type (m_header m) = 3%N \/ h_type (m_header m) = 2%N /\ (length (vis (m_data m)) < 4 \/ code m x00 x00 x00 x00) ->
    charged seq pid (Message m) [] 0
| ch_error m a b c d : h_seq (m_header m) = seq -> h_pid (m_header m) = pid -> h_type (m_header m) = 2%N ->
    code m a b c d -> ~ (a = x00 /\ b = x00 /\ c = x00 /\ d = x00) -> charged seq pid (Message m) ["NLMSG_ERROR"%string] 1
| ch_answer m : h_seq (m_header m) = seq -> h_pid (m_header m) = pid -> h_type (m_header m) <> 2%N -> h_type (m_header m) <> 3%N ->
    charged seq pid (Message m) [] 1.
(** The same for several replies. *)
Inductive charges (seq pid : N) : list reply -> list string -> nat -> Prop :=
| chs_nil : charges seq pid [] [] 0
| chs_cons x l e es n ns : charged seq pid x e n -> charges seq pid l es ns -> charges seq pid (x :: l) (e ++ es) (n + ns).

(** The value of the label "af". *)
Definition family_name (family : N) (af : string) : Prop :=
  family = 2%N /\ af = "ipv4"%string \/ family = 10%N /\ af = "ipv6"%string \/ family <> 2%N /\ family <> 10%N /\ af = "unknown"%string.
Definition errors (l : list string) : list metric := map (fun e => ErrorCount (str e)) l.
(** The observations made when a dump of this family returns. *)
Definition observations (af : string) (n : nat) : list metric := [SyscallTime (str af); ConnectionCount (str af) n].
(** The updates of one iteration that handed over this block. *)
Definition iteration (b : block) (u : list metric) : Prop :=
  exists e6 n6 e4 n4, u = errors e6 ++ observations "ipv6" n6 ++ errors e4 ++ observations "ipv4" n4 /\
    (V6Messages b <> [] -> n6 = length (V6Messages b)) /\ (V4Messages b <> [] -> n4 = length (V4Messages b)).

(** The names of the decoded structs and of the attributes that are known but not
    decoded. *)
Definition struct_name (t : nat) : option string :=
  match t with
  | 1 => Some "MemInfo" | 2 => Some "TCPInfo" | 3 => Some "VegasInfo" | 7 => Some "SockMemInfo" | 9 => Some "DCTCPInfo" | 16 => Some "BBRInfo"
  | _ => None
  end%string.
Definition skipped_name (t : nat) : bytes :=
  match t with
  | 11 => str "INET_DIAG_SKV6ONLY" | 12 => str "INET_DIAG_LOCALS" | 13 => str "INET_DIAG_PEERS" | 14 => str "INET_DIAG_PAD"
  | _ => dec (N.of_nat t)
  end.
(** How an attribute is counted: a value longer than its struct in
    large_netlink_total, a type that is not decoded (other than 18,
    INET_DIAG_MD5SIG) in netlink_skipped_total. *)
Inductive tallied (t : nat) (raw : bytes) : list metric -> Prop :=
| ta_large n name : struct_size t = Some n -> n < length raw -> struct_name t = Some name ->
    tallied t raw [LargeNetlinkMsg (str name)]
| ta_skipped : undecoded t = true -> t <> 18 -> tallied t raw [NotDecoded (skipped_name t)]
| ta_nothing : undecoded t = false \/ t = 18 -> (forall n, struct_size t = Some n -> length raw <= n) -> tallied t raw [].
(** The same for the attributes of a record from number t on, in order. *)
Inductive tally : nat -> list (option gslice) -> list metric -> Prop :=
| tl_nil t : tally t [] []
| tl_absent t l us : tally (S t) l us -> tally t (None :: l) us
| tl_present t g l u us : tallied t (vis g) u -> tally (S t) l us -> tally t (Some g :: l) (u ++ us).
