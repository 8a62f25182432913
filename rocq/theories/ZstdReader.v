(** Model of zstd/zstd.go: NewReader, with the external zstd process, as a state
    machine.  The reader is used by one goroutine at a time. *)
From stdpp Require Import base list relations.
From Verif Require Import GoBase Zstd.

(** A file on disk as the program "zstd -d -c" sees it: the bytes it gets out of
    it before it stops, and whether it stops because the file is complete.
    Simplification: the compressed format itself is left out. (zstd/zstd.go:26-43) *)
Record zfile := mkzf { content : bytes; intact : bool }.

(** What the user of the reader sees: Read returned bytes (with a nil error), or
    io.EOF, or another error; Close returned. (zstd/zstd.go:26-43) *)
Inductive rseen := RRead (b : bytes) | REof | RError | RClose.

(** The goroutine at zstd/zstd.go:37-40: cmd.Run() with the process running,
    cmd.Run() returned (true: nil), pipeW closed.  [Dead]: rtx.Must has ended the
    whole program. *)
Inductive rproc := PRunning | PExited (ok : bool) | PClosed | PDead.

(** [rp_out] are the bytes the process has written, [rp_pipe] those still in the
    pipe, [rp_open] whether the user has not closed pipeR. (zstd/zstd.go:26-43) *)
Record rst := mkr { rp_proc : rproc; rp_out : bytes; rp_pipe : bytes; rp_open : bool; rp_log : list rseen }.

(** zstd/zstd.go:26-43 NewReader that returns: os.Pipe and os.Open succeeded
    (otherwise rtx.Must ends the program) *)
Definition new_reader : rst := mkr PRunning [] [] true [].

Section Reading.
Variable f : zfile.

(** Steps of the user: Read on pipeR waits while the pipe is empty and somebody
    has its writing end (the process, or the goroutine before pipeW.Close()). (zstd/zstd.go:26-43) *)
Inductive ruser (s : rst) : rst -> Prop :=
| u_read x y : rp_proc s <> PDead -> rp_open s = true -> rp_pipe s = x ++ y -> x <> [] ->
    ruser s (mkr (rp_proc s) (rp_out s) y true (rp_log s ++ [RRead x]))
| u_eof : rp_open s = true -> rp_pipe s = [] -> rp_proc s = PClosed ->
    ruser s (mkr (rp_proc s) (rp_out s) [] true (rp_log s ++ [REof]))
| u_error : rp_proc s <> PDead -> rp_open s = false ->
    ruser s (mkr (rp_proc s) (rp_out s) (rp_pipe s) false (rp_log s ++ [RError]))
| u_close : rp_proc s <> PDead -> rp_open s = true ->
    ruser s (mkr (rp_proc s) (rp_out s) (rp_pipe s) false (rp_log s ++ [RClose])).

(** Steps of the process and of the goroutine that runs it. (zstd/zstd.go:26-43) *)
Inductive rwork (s : rst) : rst -> Prop :=
(* the process writes some of its output *)
| p_write x y : rp_proc s = PRunning -> content f = rp_out s ++ x ++ y -> x <> [] -> rp_open s = true ->
    length (rp_pipe s) + length x <= PIPE_CAP ->
    rwork s (mkr PRunning (rp_out s ++ x) (rp_pipe s ++ x) (rp_open s) (rp_log s))
(* it writes into a pipe nobody reads, and is killed by SIGPIPE *)
| p_sigpipe : rp_proc s = PRunning -> rp_out s <> content f -> rp_open s = false ->
    rwork s (mkr (PExited false) (rp_out s) (rp_pipe s) (rp_open s) (rp_log s))
(* it has written everything *)
| p_end : rp_proc s = PRunning -> rp_out s = content f ->
    rwork s (mkr (PExited (intact f)) (rp_out s) (rp_pipe s) (rp_open s) (rp_log s))
(* it does not start, fails, or is killed *)
| p_fail : rp_proc s = PRunning ->
    rwork s (mkr (PExited false) (rp_out s) (rp_pipe s) (rp_open s) (rp_log s))
(* zstd/zstd.go:38: rtx.Must of an error ends the program *)
| p_must : rp_proc s = PExited false ->
    rwork s (mkr PDead (rp_out s) (rp_pipe s) (rp_open s) (rp_log s))
(* zstd/zstd.go:39 pipeW.Close() *)
| p_close : rp_proc s = PExited true ->
    rwork s (mkr PClosed (rp_out s) (rp_pipe s) (rp_open s) (rp_log s)).

(** One step of the user or of the other side (zstd/zstd.go:26-43). *)
Inductive rstep (s : rst) : rst -> Prop :=
| rs_user s' : ruser s s' -> rstep s s'
| rs_work s' : rwork s s' -> rstep s s'.
(** Every state that some schedule leads to. (zstd/zstd.go:26-43) *)
Definition rreach (s : rst) : Prop := rtc rstep new_reader s.
End Reading.
