(** Model of the readers in netlink/archival-record.go: raw netlink streams and
    JSON lines, with the library code they rely on (io.ReadFull, binary.Read,
    bufio.Scanner with bufio.ScanLines). *)
From Coq Require Import List NArith ZArith Bool Arith.
From Verif Require Import GoBase Netlink.
Import ListNotations.
Local Open Scope list_scope.

(** An io.Reader: the pieces that its Read calls hand out, then an error for
    ever.  [in_eager]: the error comes together with the last bytes instead of
    with an empty read.  Simplification: reads after an error repeat it.
    (netlink/archival-record.go:310-325 and 356-359) *)
Record input := mkin { in_chunks : list bytes; in_eager : bool; in_err : goerr }.

(** r.Read(p) with len(p) = k (netlink/archival-record.go:310-325) *)
Definition read (k : N) (i : input) : bytes * option goerr * input :=
  match in_chunks i with
  | [] => ([], Some (in_err i), i)
  | c :: r =>
      if (N.of_nat (length c) <=? k)%N
      then (c, if in_eager i && (match r with [] => true | _ => false end) then Some (in_err i) else None,
            mkin r (in_eager i) (in_err i))
      else (firstn (N.to_nat k) c, None, mkin (skipn (N.to_nat k) c :: r) (in_eager i) (in_err i))
  end.

(** io.ReadFull on a buffer of k bytes (io.ReadAtLeast): reads while bytes are
    missing and there is no error.  [fuel] exceeds the number of pieces.
    (netlink/archival-record.go:310-325) *)
Fixpoint read_full_go (fuel : nat) (k : N) (acc : bytes) (i : input) : outcome bytes * input :=
  if (k =? 0)%N then (Ret acc, i)
  else match fuel with
  | O => (Diverge, i)
  | S f =>
      match read k i with
      | (b, None, i') => read_full_go f (k - N.of_nat (length b)) (acc ++ b) i'
      | (b, Some e, i') =>
          if (k <=? N.of_nat (length b))%N then (Ret (acc ++ b), i')
          else match acc ++ b, e with
               | _ :: _, ErrEOF => (Fail ErrUnexpectedEOF, i')
               | _, _ => (Fail e, i')
               end
      end
  end.
(** io.ReadFull, called by binary.Read at netlink/archival-record.go:313 and 319 *)
Definition read_full (k : N) (i : input) : outcome bytes * input :=
  read_full_go (S (length (in_chunks i))) k [] i.

(** syscall.NlMsghdr as read by binary.Read with LittleEndian (netlink/archival-record.go:310-325) *)
Definition load_hdr (b : bytes) : nlmsghdr :=
  mkhdr (le (sub 0 4 b)) (le (sub 4 2 b)) (le (sub 6 2 b)) (le (sub 8 4 b)) (le (sub 12 4 b)).

(** netlink/archival-record.go:310-325 LoadRawNetlinkMessage.  binary.Size of
    the header is 16; header.Len-16 is a uint32 and wraps.  The failure of make
    on a machine without 4 GiB of memory is left out. *)
Definition load_raw_message (i : input) : outcome nlmsg * input :=
  match read_full 16 i with
  | (Ret hb, i1) =>
      let header := load_hdr hb in
      match read_full ((h_len header + 4294967296 - 16) mod 4294967296) i1 with
      | (Ret data, i2) => (Ret (mkmsg header (mkslice data [])), i2)
      | (Fail e, i2) => (Fail e, i2)
      | (Panic, i2) => (Panic, i2)
      | (Diverge, i2) => (Diverge, i2)
      end
  | (Fail e, i1) => (Fail e, i1)
  | (Panic, i1) => (Panic, i1)
  | (Diverge, i1) => (Diverge, i1)
  end.

(** netlink/archival-record.go:342-349 rawReader.Next.  Without exclusion
    MakeArchivalRecord never returns (nil, nil); that case is a Panic here (the
    caller would dereference nil) and is proved unreachable. *)
Definition raw_next (i : input) : outcome archival * input :=
  match load_raw_message i with
  | (Ret msg, i') =>
      (match make_archival_record msg None with
       | Ret (Some r) => Ret r
       | Ret None => Panic
       | Fail e => Fail e
       | Panic => Panic
       | Diverge => Diverge
       end, i')
  | (Fail e, i') => (Fail e, i')
  | (Panic, i') => (Panic, i')
  | (Diverge, i') => (Diverge, i')
  end.

(** bufio.Scanner: len(s.buf), s.start, s.buf[s.start:s.end], s.err and the
    reader.  [ErrIO] also stands for bufio.ErrTooLong and io.ErrNoProgress: the
    archive reader never looks at the scanner's error. (netlink/archival-record.go:356-374) *)
Record scanner := mksc {
  sc_len : N; sc_start : N; sc_data : bytes; sc_err : option goerr; sc_in : input }.

(** bufio.NewScanner, used by NewArchiveReader (netlink/archival-record.go:356-359) *)
Definition new_scanner (i : input) : scanner := mksc 0 0 [] None i.

(** The byte '\n'. (netlink/archival-record.go:356-374) *)
Definition newline : byte := x0a.

(** bytes.IndexByte(data, '\n'): the bytes before and after the first newline
    (netlink/archival-record.go:356-374) *)
Fixpoint cut_newline (b : bytes) : option (bytes * bytes) :=
  match b with
  | [] => None
  | x :: r => if Byte.eqb x newline then Some ([], r)
              else match cut_newline r with Some (l, t) => Some (x :: l, t) | None => None end
  end.
(** bufio.dropCR (netlink/archival-record.go:356-374) *)
Definition drop_cr (l : bytes) : bytes :=
  match rev' l with x0d :: r => rev' r | _ => l end.

(** bufio.ScanLines: the token and the bytes that remain after advancing, or
    None for "no token yet" (netlink/archival-record.go:356-374) *)
Definition scan_lines (data : bytes) (at_eof : bool) : option (bytes * bytes) :=
  match cut_newline data with
  | Some (l, r) => Some (drop_cr l, r)
  | None => match data with
            | [] => None
            | _ => if at_eof then Some (drop_cr data, []) else None
            end
  end.

(** The inner read loop of Scan: gives up after 100 empty reads. (netlink/archival-record.go:356-374) *)
Fixpoint read_some (loops : nat) (k : N) (i : input) : bytes * option goerr * input :=
  match read k i with
  | ([], None, i') =>
      match loops with
      | O => ([], Some ErrIO, i')
      | S l => read_some l k i'
      end
  | x => x
  end.

(** bufio.Scanner.Scan: the token if there is one.  The initial buffer size is
    4096, the limit maxTokenSize 65536.  [fuel] bounds the outer loop. (netlink/archival-record.go:356-374) *)
Fixpoint scan_go (fuel : nat) (s : scanner) : outcome (option bytes) * scanner :=
  let have := (match sc_data s with [] => false | _ => true end) || (match sc_err s with Some _ => true | None => false end) in
  match (if have then scan_lines (sc_data s) (match sc_err s with Some _ => true | None => false end) else None) with
  | Some (token, rest) =>
      (Ret (Some token),
       mksc (sc_len s) (sc_start s + N.of_nat (length (sc_data s)) - N.of_nat (length rest)) rest (sc_err s) (sc_in s))
  | None =>
      match sc_err s with
      | Some _ => (Ret None, mksc (sc_len s) 0 [] (sc_err s) (sc_in s))
      | None =>
          let size := N.of_nat (length (sc_data s)) in
          let full := (sc_start s + size =? sc_len s)%N in
          (* shift *)
          let start1 := if (0 <? sc_start s)%N && (full || (sc_len s / 2 <? sc_start s)%N) then 0%N else sc_start s in
          (* grow *)
          if (start1 + size =? sc_len s)%N && (65536 <=? sc_len s)%N
          then (Ret None, mksc (sc_len s) start1 (sc_data s) (Some ErrIO) (sc_in s))
          else
            let grow := (start1 + size =? sc_len s)%N in
            let len2 := if grow then (if (sc_len s =? 0)%N then 4096%N else N.min (sc_len s * 2) 65536) else sc_len s in
            let start2 := if grow then 0%N else start1 in
            match fuel with
            | O => (Diverge, s)
            | S f =>
                match read_some 100 (len2 - (start2 + size)) (sc_in s) with
                | (b, e, i') => scan_go f (mksc len2 start2 (sc_data s ++ b) e i')
                end
            end
      end
  end.
(** Every turn that goes round consumes a piece, a byte, or sets the error.
    (netlink/archival-record.go:356-374) *)
Definition scan_fuel (s : scanner) : nat := S (length (concat (in_chunks (sc_in s))) + length (in_chunks (sc_in s))).
(** bufio.Scanner.Scan, called at netlink/archival-record.go:363 *)
Definition scan (s : scanner) : outcome (option bytes) * scanner := scan_go (scan_fuel s) s.

Section Lines.
  (** json.Unmarshal into an ArchivalRecord, as the function of the line. *)
  Variable unmarshal : bytes -> outcome archival.

  (** netlink/archival-record.go:362-374 archiveReader.Next *)
  Definition archive_next (s : scanner) : outcome archival * scanner :=
    match scan s with
    | (Ret (Some line), s') => (unmarshal line, s')
    | (Ret None, s') => (Fail ErrEOF, s')
    | (Fail e, s') => (Fail e, s')
    | (Panic, s') => (Panic, s')
    | (Diverge, s') => (Diverge, s')
    end.

  (** netlink/archival-record.go:377-392 LoadAllArchivalRecords: the records and
      the error.  [fuel] bounds the loop. *)
  Fixpoint load_archive_go (fuel : nat) (s : scanner) (acc : list archival) : outcome (list archival * option goerr) :=
    match fuel with
    | O => Diverge
    | S f =>
        match archive_next s with
        | (Ret r, s') => load_archive_go f s' (acc ++ [r])
        | (Fail ErrEOF, _) => Ret (acc, None)
        | (Fail e, _) => Ret (acc, Some e)
        | (Panic, _) => Panic
        | (Diverge, _) => Diverge
        end
    end.
  (** netlink/archival-record.go:377-392 LoadAllArchivalRecords *)
  Definition load_all_archival_records (i : input) : outcome (list archival * option goerr) :=
    load_archive_go (S (length (concat (in_chunks i)))) (new_scanner i) [].
End Lines.
