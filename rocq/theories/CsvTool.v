(** Model of cmd/csvtool/main.go, and of the MarshalCSV methods of
    inetdiag/structs.go that fill its cells. *)
From Coq Require Import Strings.String.
From stdpp Require Import base list relations.
From Coq Require Import NArith ZArith.
From Verif Require Import Zstd ZstdReader GoBase NetIP Inetdiag Netlink Reader Snapshot Archive.
Local Open Scope list_scope.

(** The hexadecimal digits of a number, last one first, without leading zeros
    (for %X, inetdiag/structs.go:96) *)
Fixpoint hex_min (fuel : nat) (n : N) : bytes :=
  match fuel with
  | O => []
  | S f => if (n <? 16)%N then [hexdigit n] else hexdigit (n mod 16) :: hex_min f (n / 16)
  end.
(** fmt %X, inetdiag/structs.go:97 *)
Definition hexX (n : N) : bytes := rev (hex_min (S (N.size_nat n)) n).

(** inetdiag/structs.go:95-98 (c *cookieType) MarshalCSV *)
Definition cookie_csv (c : bytes) : bytes := hexX (le c).
(** inetdiag/structs.go:103-106 (ipAddr *ipType) MarshalCSV *)
Definition ip_csv (a : bytes) : bytes := ip_string (ip a).
(** inetdiag/structs.go:112-115 (p *Port) MarshalCSV *)
Definition port_csv (p : bytes) : bytes := dec (be p).
(** inetdiag/structs.go:121-124 (nif *netIF) MarshalCSV *)
Definition if_csv (n : bytes) : bytes := dec (be n).
(** The six cells IDM.SockID.*, inetdiag/structs.go:130-137 *)
Definition sock_csv (id : sock) : list bytes :=
  [port_csv (b_sport id); port_csv (b_dport id); ip_csv (b_src id); ip_csv (b_dst id); if_csv (b_if id); cookie_csv (b_cookie id)].

(** strings.HasSuffix (cmd/csvtool/main.go:34) *)
Definition has_suffix (s suffix : bytes) : bool :=
  (length suffix <=? length s) && bytes_eqb (skipn (length s - length suffix) s) suffix.

(** How the program ends: main returned, log.Fatal (in rtx.Must or directly), or a
    panic. (cmd/csvtool/main.go:42-61) *)
Inductive toolend := Exit0 | Fatal | Panicked.

Section Tool.
(** gocsv.Marshal (cmd/csvtool/main.go:29), an arbitrary function: what it writes
    and whether it returns nil.  Its source is not in the repository. *)
Variable to_csv : list snapshot -> bytes * bool.

(** cmd/csvtool/main.go:55-59: everything after the source is open; what is
    written to standard output, and the end.  The loop of LoadAll runs at most once
    per byte of the source, and once more. *)
Definition convert (i : input) : bytes * toolend :=
  match load_all (S (S (length (concat (in_chunks i))))) (archive_next unmarshal) (new_scanner i) with
  | Ret (_, snaps) => match to_csv snaps with (out, true) => (out, Exit0) | (out, false) => (out, Fatal) end
  | Fail _ => ([], Fatal)
  | Panic => ([], Panicked)
  | Diverge => ([], Panicked)
  end.

(** What a file name can be opened as: os.Open gives a reader, or an error; and
    zstd.NewReader gives a reader or ends the program. (cmd/csvtool/main.go:33-38) *)
Record world := mkworld { w_stdin : input; w_open : bytes -> option input; w_zstd : bytes -> option input }.
(** cmd/csvtool/main.go:33-38 openFile *)
Definition open_file (wd : world) (fn : bytes) : option input :=
  if has_suffix fn (str ".zst") then w_zstd wd fn else w_open wd fn.
(** cmd/csvtool/main.go:42-60 main with os.Args[1:] *)
Definition csvtool (wd : world) (args : list bytes) : bytes * toolend :=
  match args with
  | [] => convert (w_stdin wd)
  | [fn] => match open_file wd fn with Some i => convert i | None => ([], Fatal) end
  | _ => ([], Fatal)
  end.

(** ** Reading a compressed file while the zstd process runs *)
(** What the Read calls of main have returned so far (cmd/csvtool/main.go:56) *)
Definition reads (l : list rseen) : list bytes := omap (fun x => match x with RRead b => Some b | _ => None end) l.
(** Main reads, or is done. (cmd/csvtool/main.go:42-61) *)
Inductive tphase := TReading | TDone (out : bytes) (e : toolend).
(** The steps of the process.  While main reads (it closes the reader only when it
    returns), the reader of zstd/zstd.go makes its steps; main is done when it has
    seen the end of the stream, or when what it has read decides the result
    whatever would follow.  When cmd.Run fails the whole process ends (rp_proc =
    PDead), main does no step any more. (cmd/csvtool/main.go:42-61) *)
Inductive tstep (f : zfile) : rst * tphase -> rst * tphase -> Prop :=
| t_read s s' : rstep f s s' -> rp_open s' = true -> tstep f (s, TReading) (s', TReading)
| t_eof s out e : rp_proc s <> PDead -> REof ∈ rp_log s -> convert (mkin (reads (rp_log s)) false ErrEOF) = (out, e) ->
    tstep f (s, TReading) (s, TDone out e)
| t_decided s out e : rp_proc s <> PDead ->
    (forall more eager err, Forall (fun c => c <> []) more -> convert (mkin (reads (rp_log s) ++ more) eager err) = (out, e)) ->
    tstep f (s, TReading) (s, TDone out e).
(** Every state of csvtool on a compressed file. (cmd/csvtool/main.go:42-61) *)
Definition treach (f : zfile) (x : rst * tphase) : Prop := rtc (tstep f) (new_reader, TReading) x.
End Tool.
