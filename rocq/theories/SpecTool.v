(** Specification of csvtool's rows in terms of the kernel's messages. *)
From Coq Require Import Strings.String List NArith ZArith Bool.
From Verif Require Import GoBase Inetdiag Netlink SpecNetlink SpecAddrText Snapshot SpecSnapshot SpecCsv SpecDecode SpecTable.
From Verif Require SpecPath.
Import ListNotations.
Local Open Scope list_scope.

(** The row has a cell below this name, and the cell says P. *)
Definition cell (row : list bytes) (name : string) (P : bytes -> Prop) : Prop :=
  exists i c, nth_error actual_header i = Some (str name) /\ nth_error row i = Some c /\ P c.

(** The numbers of struct inet_diag_msg: name of the column, offset and width.
    Those of the first list are in the order of the host (little-endian), those of
    the second in the order of the network. *)
Local Open Scope string_scope.
Definition host_numbers : list (string * nat * nat) :=
  [("IDM.Family", 0, 1); ("IDM.State", 1, 1); ("IDM.Timer", 2, 1); ("IDM.Retrans", 3, 1); ("IDM.Expires", 52, 4);
   ("IDM.Rqueue", 56, 4); ("IDM.Wqueue", 60, 4); ("IDM.UID", 64, 4); ("IDM.Inode", 68, 4)].
Definition network_numbers : list (string * nat * nat) :=
  [("IDM.SockID.SPort", 4, 2); ("IDM.SockID.DPort", 6, 2); ("IDM.SockID.Interface", 40, 4)].
(** Attributes of one byte: name of the column and type (include/uapi/linux/inet_diag.h) *)
Definition one_byte_columns : list (string * nat) :=
  [("TOS", 5); ("TClass", 6); ("ClassID", 17); ("Shutdown", 8); ("Protocol", 10)].
Local Close Scope string_scope.

(** The address field at offset o, of an IPv4 or IPv6 header, after the anonymizer *)
Definition shown_address (anon : bytes -> bytes) (raw : bytes) (o : nat) : bytes :=
  if N.eqb (number_at raw 0 1) 10 then anon (bytes_at raw o 16) else anon (bytes_at raw o 4) ++ bytes_at raw (o + 4) 12.

(** What the cell says about the last attribute of type k, if there is one *)
Definition of_last (l : list (N * bytes)) (k : nat) (present : bytes -> Prop) (absent : Prop) : Prop :=
  (exists v, last_of (N.of_nat k) l v /\ present v) \/ ((forall v, ~ last_of (N.of_nat k) l v) /\ absent).

(** The row that tells of a message m which was received at time t.  (A time zero is
    given as 2009-05-29 23:59:59.) *)
Record row_of (anon : bytes -> bytes) (t : Z) (m : nlmsg) (row : list bytes) : Prop := mkrow {
  row_length : length row = length actual_header;
  row_family : In (number_at (vis (m_data m)) 0 1) [2; 10]%N;
  row_time : cell row "Timestamp" (fun c => stamp c (if Z.eqb t (-62135596800000000000) then 1243641599000000000%Z else t));
  row_host : forall n o w, In (n, o, w) host_numbers -> cell row n (fun c => numeral c (number_at (vis (m_data m)) o w));
  row_network : forall n o w, In (n, o, w) network_numbers -> cell row n (fun c => numeral c (big (bytes_at (vis (m_data m)) o w)));
  row_src : cell row "IDM.SockID.Src" (address_text (shown_address anon (vis (m_data m)) 8));
  row_dst : cell row "IDM.SockID.Dst" (address_text (shown_address anon (vis (m_data m)) 24));
  row_cookie : cell row "IDM.SockID.Cookie" (fun c => hex_numeral c (number_at (vis (m_data m)) 44 8));
  row_attributes : exists l, wire_area l (skipn 72 (vis (m_data m))) /\
    (cell row "Observed" (fun c => exists n, numeral c n /\ forall i, N.testbit n i = true <-> (i < 32)%N /\ exists v, last_of (i + 1) l v)) /\
    (cell row "NotFullyParsed" (fun c => exists n, number_or_blank n c /\ forall i, N.testbit n i = true <-> (i < 32)%N /\ exists v, last_of (i + 1) l v /\ poorly_parsed (S (N.to_nat i)) v)) /\
    cell row "CongestionAlgorithm" (fun c => of_last l 4 (fun v => c = removelast v) (c = [])) /\
    (forall n k, In (n, k) one_byte_columns -> cell row n (fun c => of_last l k (fun v => number_or_blank (byte_at v 0) c) (number_or_blank 0 c))) /\
    cell row "Mark" (fun c => of_last l 15 (fun v => number_or_blank (if length v =? 4 then number_at v 0 4 else 0%N) c) (number_or_blank 0 c)) /\
    (forall pre k tb f, In (pre, k, tb) kernel_structures -> In f tb ->
       cell row (actual_name (pre ++ fst (fst (fst f)))) (fun c => of_last l k (fun v => integer_text c (held v f)) (c = []))) }.

(** The name of file number seq of the connection with this cookie, in some
    directory: host_COOKIE.NNNNN.jsonl.zst, the cookie in 16 hexadecimal digits and
    the number in five digits at least *)
Definition named_for (host : bytes) (cookie : N) (seq : nat) (p : bytes) : Prop :=
  exists dir K N, SpecPath.padded 16 16 K cookie /\ SpecPath.padded 10 5 N (N.of_nat seq) /\
    p = dir ++ str "/" ++ host ++ str "_" ++ K ++ str "." ++ N ++ str ".jsonl.zst".
