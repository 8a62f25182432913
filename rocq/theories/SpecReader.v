(** Specification of the readers: lines of a byte string, and the messages of a
    raw netlink stream. *)
From Coq Require Import List NArith ZArith Bool Arith.
From Verif Require Import GoBase Netlink Reader.
Import ListNotations.
Local Open Scope list_scope.

(** The lines of a byte string, each with whether a newline ends it; [cur] are
    the bytes of the current line so far.  An empty last line does not count. *)
Fixpoint lines_from (cur b : bytes) : list (bytes * bool) :=
  match b with
  | [] => match cur with [] => [] | _ => [(cur, false)] end
  | x :: r => if Byte.eqb x x0a then (cur, true) :: lines_from [] r else lines_from (cur ++ [x]) r
  end.
Definition lines (b : bytes) : list (bytes * bool) := lines_from [] b.

(** A line without the carriage return at its end. *)
Definition without_cr (l : bytes) : bytes :=
  if Byte.eqb (last l x00) x0d then removelast l else l.

(** Lines that the reader can hold: below 65536 bytes; a last line without
    newline may have 65536 if the source reports its end with the last bytes. *)
Definition fits (eager : bool) (l : bytes * bool) : bool :=
  (N.of_nat (length (fst l)) <? 65536)%N
  || (eager && negb (snd l) && (N.of_nat (length (fst l)) =? 65536)%N).

(** One record per line, up to the first line that does not fit (no error), or
    that does not decode (its error). *)
Fixpoint records_of (unmarshal : bytes -> outcome archival) (eager : bool) (ls : list (bytes * bool))
  : list archival * option goerr :=
  match ls with
  | [] => ([], None)
  | l :: rest =>
      if fits eager l then
        match unmarshal (without_cr (fst l)) with
        | Ret r => let (rs, e) := records_of unmarshal eager rest in (r :: rs, e)
        | Fail e => ([], Some e)
        | _ => ([], None)
        end
      else ([], None)
  end.

(** A netlink message as it appears in a stream: a 16-byte little-endian header
    (length, type, flags, sequence number, process) and the data. *)
Definition wire (m : nlmsg) : bytes :=
  let h := m_header m in
  le_enc 4 (h_len h) ++ le_enc 2 (h_type h) ++ le_enc 2 (h_flags h) ++ le_enc 4 (h_seq h) ++ le_enc 4 (h_pid h)
  ++ vis (m_data m).
Definition proper (m : nlmsg) : Prop :=
  let h := m_header m in
  h_len h = (16 + N.of_nat (length (vis (m_data m))))%N /\ spare (m_data m) = [] /\
  (h_len h < 4294967296)%N /\ (h_type h < 65536)%N /\ (h_flags h < 65536)%N /\
  (h_seq h < 4294967296)%N /\ (h_pid h < 4294967296)%N.

(** The error with which a source of the given final error stops a reader that
    still has p to read, p being the beginning of a message. *)
Definition stop_error (final : goerr) (p : bytes) : goerr :=
  match final with
  | ErrEOF => if (length p =? 0) || (length p =? 16) then ErrEOF else ErrUnexpectedEOF
  | e => e
  end.

(** All the bytes of a source, and sources whose reads always make progress. *)
Definition contents (i : input) : bytes := concat (in_chunks i).
Definition solid (i : input) : Prop := Forall (fun c => c <> []) (in_chunks i).

(** A line below the limit, and what json.Unmarshal makes of a line. *)
Definition short (l : bytes * bool) : Prop := (N.of_nat (length (fst l)) < 65536)%N.
Definition line_record (unmarshal : bytes -> outcome archival) (l : bytes * bool) : outcome archival :=
  unmarshal (without_cr (fst l)).

(** The sequence of results of calling LoadRawNetlinkMessage again and again. *)
Inductive loads : input -> list nlmsg -> goerr -> Prop :=
| loads_end i i' e : load_raw_message i = (Fail e, i') -> loads i [] e
| loads_more i i' m ms e : load_raw_message i = (Ret m, i') -> loads i' ms e -> loads i (m :: ms) e.

(** json.Unmarshal returns a record or an error, which is never io.EOF. *)
Definition proper_unmarshal (unmarshal : bytes -> outcome archival) : Prop :=
  forall l, (exists r, unmarshal l = Ret r) \/ (exists e, unmarshal l = Fail e /\ e <> ErrEOF).
