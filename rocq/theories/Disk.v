(** Model of the files on disk: what os.Create and the compressor do to the file
    that a path names, when the saver of System.v runs (zstd/zstd.go:64-88 and
    saver/saver.go:106-158).  In System.v every writer has contents of its own;
    here two writers with the same path write to the same file. *)
From stdpp Require Import gmap relations.
From Verif Require Import GoBase Netlink Cache Saver System.

(** The files by path, relative to the output directory (main.go:86-88 changes to
    it), and what the compressor of each writer has written so far, which is
    where its next output goes.  (zstd/zstd.go:70-76: one descriptor for each
    writer)  Simplification: files are neither renamed nor removed while tcp-info
    runs, so that a path stands for one file. *)
Record disk := mkdisk { d_file : bytes -> option bytes; d_out : nat -> bytes }.

(** write(2) at an offset: a gap is filled with zero bytes, and what lies behind
    stays. (zstd/zstd.go:76 cmd.Stdout = f) *)
Definition overlay (old : bytes) (off : nat) (x : bytes) : bytes :=
  firstn off old ++ repeat x00 (off - length old) ++ x ++ skipn (off + length x) old.
(** The file at one path gets new contents. (zstd/zstd.go:70-76) *)
Definition put (p c : bytes) (k : bytes -> option bytes) : bytes -> option bytes := fun q => if bytes_eqb q p then Some c else k q.
(** What one writer has put out. (zstd/zstd.go:76) *)
Definition emits (wr : nat) (o : bytes) (k : nat -> bytes) : nat -> bytes := fun i => if Nat.eqb i wr then o else k i.
(** os.Create(filename), zstd/zstd.go:70: an existing file is emptied. *)
Definition create (wr : nat) (p : bytes) (k : disk) : disk := mkdisk (put p [] (d_file k)) (emits wr [] (d_out k)).
(** The compressor writes x. (zstd/zstd.go:79) *)
Definition flush (wr : nat) (p x : bytes) (k : disk) : disk :=
  mkdisk (put p (overlay (match d_file k p with Some c => c | None => [] end) (length (d_out k wr)) x) (d_file k))
         (emits wr (d_out k wr ++ x) (d_out k)).

(** What a step of the saver does on disk: only the creation of a file does
    something at once. (saver/saver.go:134 calls zstd.NewWriter) *)
Definition at_once (y y' : sys) (k : disk) : disk :=
  match s_log (y_saver y) !! y_pc y with
  | Some (ACreate wr p) => if Nat.eqb (y_pc y') (S (y_pc y)) then create wr p k else k
  | _ => k
  end.

Section Disk.
Variables (w : world) (cf : config) (cap : nat) (anon : bytes -> bytes) (line : archival -> bytes) (hline : metadata -> bytes).
(** What the compressor makes of the bytes it is given: an arbitrary function. *)
Variable (z : bytes -> bytes).

(** The saver, its marshallers, and the compressors.  A compressor may put out
    anything at any time until it ends; Close waits for its end, and then it has
    put out the compressed form of all it was given (zstd/zstd.go:50-57, see
    Zstd.v). *)
Inductive dstep : sys * disk -> sys * disk -> Prop :=
| ds_run y y' k : step w cf cap anon line hline y y' ->
    (forall wr f f', y_files y !! wr = Some f -> y_files y' !! wr = Some f' -> f_open f = true -> f_open f' = false ->
      d_out k wr = z (f_data f)) ->
    dstep (y, k) (y', at_once y y' k)
| ds_flush y k wr f x : y_files y !! wr = Some f -> f_open f = true -> dstep (y, k) (y, flush wr (f_path f) x k).

(** A run that begins with the files k0. (main.go:128-151) *)
Definition disk_reachable (bs : list block) (k0 : bytes -> option bytes) (s : sys * disk) : Prop :=
  rtc dstep (initial cf bs, mkdisk k0 (fun _ => [])) s.
End Disk.
