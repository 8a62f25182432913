(** Model of zstd/zstd.go: NewWriter and its Close, with the external zstd
    process, as a state machine.  The writer is used by one goroutine at a time.
    Compression is the identity (what matters is which bytes reach the file). *)
From stdpp Require Import base list relations.
From Verif Require Import GoBase.

(** What the user of the writer sees: Write(b) returned nil or an error, Close
    returned nil or an error. (zstd/zstd.go:45-88) *)
Inductive seen := SWrite (b : bytes) (err : option goerr) | SClose (err : option goerr).

(** The user: not in a call, in Write with the bytes still to go, or waiting in
    w.wg.Wait() (zstd/zstd.go:55). *)
Inductive user := Idle | Writing (b rest : bytes) | Waiting.

(** The goroutine at zstd/zstd.go:78-85: cmd.Run() with the process running,
    cmd.Run() returned (true: the process succeeded), pipeR closed, wg.Done()
    called. *)
Inductive proc := Running | Exited (ok : bool) | HungUp (ok : bool) | Finished (ok : bool).

(** [pipe] holds the bytes in the pipe, [wclosed] whether pipeW is closed,
    [input] what the process has read, [file] what is in the file.  The pipe is
    at most 65536 bytes long. (zstd/zstd.go:45-88) *)
Record zst := mkz { u : user; p : proc; pipe : bytes; wclosed : bool; input : bytes; file : bytes; accepted : bytes; zlog : list seen }.
(** The size of a pipe on Linux (os.Pipe at zstd/zstd.go:66). *)
Definition PIPE_CAP : nat := Z.to_nat 65536.

(** zstd/zstd.go:63-88 NewWriter that succeeds *)
Definition new_writer : zst := mkz Idle Running [] false [] [] [] [].

(** The user sees the result of a call. (zstd/zstd.go:45-88) *)
Definition see (x : seen) (s : zst) : list seen := zlog s ++ [x].

(** Steps of the user; [w_start] and [w_close] are calls, the others what happens in
    them. (zstd/zstd.go:45-88) *)
Inductive zuser (s : zst) : zst -> Prop :=
(* os.File.Write: a part goes into the pipe while somebody has its reading end *)
| w_start b : u s = Idle -> wclosed s = false -> zuser s (mkz (Writing b b) (p s) (pipe s) (wclosed s) (input s) (file s) (accepted s) (zlog s))
| w_closed b : u s = Idle -> wclosed s = true ->
    zuser s (mkz Idle (p s) (pipe s) (wclosed s) (input s) (file s) (accepted s) (see (SWrite b (Some ErrIO)) s))
| w_part b x y : u s = Writing b (x ++ y) -> x <> [] -> length (pipe s) + length x <= PIPE_CAP ->
    (forall ok, p s <> HungUp ok /\ p s <> Finished ok) ->
    zuser s (mkz (Writing b y) (p s) (pipe s ++ x) (wclosed s) (input s) (file s) (accepted s ++ x) (zlog s))
| w_done b : u s = Writing b [] ->
    zuser s (mkz Idle (p s) (pipe s) (wclosed s) (input s) (file s) (accepted s) (see (SWrite b None) s))
| w_epipe b y ok : u s = Writing b y -> y <> [] -> p s = HungUp ok \/ p s = Finished ok ->
    zuser s (mkz Idle (p s) (pipe s) (wclosed s) (input s) (file s) (accepted s) (see (SWrite b (Some ErrIO)) s))
(* zstd/zstd.go:51-54: a second Close, an error of close(2), and success *)
| w_close_again : u s = Idle -> wclosed s = true ->
    zuser s (mkz Idle (p s) (pipe s) true (input s) (file s) (accepted s) (see (SClose (Some ErrIO)) s))
| w_close_error : u s = Idle -> wclosed s = false ->
    zuser s (mkz Idle (p s) (pipe s) true (input s) (file s) (accepted s) (see (SClose (Some ErrIO)) s))
| w_close : u s = Idle -> wclosed s = false ->
    zuser s (mkz Waiting (p s) (pipe s) true (input s) (file s) (accepted s) (zlog s))
(* zstd/zstd.go:55-56 *)
| w_wait ok : u s = Waiting -> p s = Finished ok ->
    zuser s (mkz Idle (p s) (pipe s) (wclosed s) (input s) (file s) (accepted s) (see (SClose None) s)).

(** Steps of the process and of the goroutine that runs it. (zstd/zstd.go:45-88) *)
Inductive zproc (s : zst) : zst -> Prop :=
(* the process reads from its standard input *)
| z_read x y : p s = Running -> pipe s = x ++ y -> x <> [] ->
    zproc s (mkz (u s) Running y (wclosed s) (input s ++ x) (file s) (accepted s) (zlog s))
(* it writes some of its output *)
| z_flush x y : p s = Running -> input s = file s ++ x ++ y -> x <> [] ->
    zproc s (mkz (u s) Running (pipe s) (wclosed s) (input s) (file s ++ x) (accepted s) (zlog s))
(* at the end of its input it exits successfully having written everything *)
| z_exit : p s = Running -> pipe s = [] -> wclosed s = true -> file s = input s ->
    zproc s (mkz (u s) (Exited true) (pipe s) (wclosed s) (input s) (file s) (accepted s) (zlog s))
(* it does not start, fails, or is killed *)
| z_fail : p s = Running ->
    zproc s (mkz (u s) (Exited false) (pipe s) (wclosed s) (input s) (file s) (accepted s) (zlog s))
(* zstd/zstd.go:83 pipeR.Close() *)
| z_hangup ok : p s = Exited ok ->
    zproc s (mkz (u s) (HungUp ok) (pipe s) (wclosed s) (input s) (file s) (accepted s) (zlog s))
(* zstd/zstd.go:84 wg.Done() *)
| z_done ok : p s = HungUp ok ->
    zproc s (mkz (u s) (Finished ok) (pipe s) (wclosed s) (input s) (file s) (accepted s) (zlog s)).

(** One step of the user or of the process side (zstd/zstd.go:51-88). *)
Inductive zstep (s : zst) : zst -> Prop :=
| zs_user s' : zuser s s' -> zstep s s'
| zs_proc s' : zproc s s' -> zstep s s'.
(** Every state that some schedule leads to. (zstd/zstd.go:45-88) *)
Definition zreach (s : zst) : Prop := rtc zstep new_writer s.
