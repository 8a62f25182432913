(** Model of the saver package when the compressors misbehave: the transition
    system of System.v, with writers whose zstd process dies or hangs. *)
From stdpp Require Import gmap.
From Coq Require Import NArith ZArith.
From Verif Require Import GoBase GoTime Inetdiag Netlink Cache Saver System.

(** What becomes of the zstd process (or the disk) behind a writer.
    - [Healthy]: all that is written arrives;
    - [Fails n]: only the first n bytes arrive.  Write returns all the same, with
      or without an error, which nobody looks at (saver/saver.go:80-81 and
      154-155); cmd.Run returns, so Close returns too (zstd/zstd.go:77-84);
    - [Hangs n]: the process does not end and takes no more input.  n bytes (what
      it has read and the buffer of the pipe) are accepted; a Write that goes
      beyond them does not return, nor does wg.Wait() in Close
      (zstd/zstd.go:50-57).  The part of such a Write that still fits is not
      shown in the file.
    (zstd/zstd.go:45-88) *)
Inductive fate := Healthy | Fails (n : nat) | Hangs (n : nat).

Section Faults.
Variables (w : world) (cf : config).
Variables (cap : nat) (anon : bytes -> bytes) (line : archival -> bytes) (hline : metadata -> bytes).
(** The fate of every writer; arbitrary. *)
Variable fate_of : nat -> fate.

(** Writer.Write (saver/saver.go:80-81 and 154-155, zstd/zstd.go:45-48);
    [None]: it does not return. *)
Definition fwrite (wr : nat) (b : bytes) (fs : gmap nat file) : option (gmap nat file) :=
  match fs !! wr with
  | Some f =>
      if f_open f
      then match fate_of wr with
           | Healthy => Some (<[wr := mkfile (f_path f) (f_data f ++ b) true]> fs)
           | Fails n => Some (<[wr := mkfile (f_path f) (firstn n (f_data f ++ b)) true]> fs)
           | Hangs n => if length (f_data f ++ b) <=? n
                        then Some (<[wr := mkfile (f_path f) (f_data f ++ b) true]> fs) else None
           end
      else Some fs
  | None => Some fs
  end.
(** Writer.Close (saver/saver.go:68, zstd/zstd.go:50-57); [None]: it does not return *)
Definition fclose (wr : nat) (fs : gmap nat file) : option (gmap nat file) :=
  match fs !! wr with
  | Some f =>
      match fate_of wr with
      | Hangs _ => if f_open f then None else Some fs
      | _ => Some (<[wr := mkfile (f_path f) (f_data f) false]> fs)
      end
  | None => Some fs
  end.

(** [System.exec] with these writers: writeHeader (saver/saver.go:144-156) runs in
    the saver goroutine and may block it. *)
Definition fexec (a : action) (y : sys) : option sys :=
  match a with
  | AHeader wr md =>
      match fwrite wr (hline md) (y_files y) with
      | Some fs => match fwrite wr nl fs with
                   | Some fs' => Some (with_files fs' y)
                   | None => None
                   end
      | None => None
      end
  | _ => exec cap hline a y
  end.

(** [System.step] with these writers: one step of some goroutine.
    (saver/saver.go:65-85 runMarshaller and 331-496) *)
Inductive fstep : sys -> sys -> Prop :=
| fs_job y j js view : alive y -> y_pc y = length (s_log (y_saver y)) -> y_jobs y = j :: js ->
    (forall c, sees (current (y_heap y) c) (view c)) ->
    fstep y (with_saver (run_job w cf view j (y_saver y)).1 ((run_job w cf view j (y_saver y)).2 ++ js) y)
| fs_act y a y' : alive y -> s_log (y_saver y) !! y_pc y = Some a -> fexec a y = Some y' ->
    fstep y (with_pc (S (y_pc y)) y')
| fs_take y q m t ts : alive y -> y_marsh y !! q = Some m -> m_phase m = Idle -> m_chan m = t :: ts ->
    fstep y (with_marsh q (mkmarsh ts (m_closed m) (Holding t)) y)
| fs_finish y q m : alive y -> y_marsh y !! q = Some m -> m_phase m = Idle -> m_chan m = [] -> m_closed m = true ->
    fstep y (match y_wg y with O => panicked y | S n => with_wg n (goes_to q m Finished y) end)
| fs_close y q m wr fs : alive y -> y_marsh y !! q = Some m -> m_phase m = Holding (None, wr) ->
    fclose wr (y_files y) = Some fs ->
    fstep y (goes_to q m Idle (with_files fs y))
| fs_anon y q m c wr raw : alive y -> y_marsh y !! q = Some m -> m_phase m = Holding (Some c, wr) ->
    anonymize anon (match ar_raw (current (y_heap y) c) with Some b => b | None => [] end) = Ret raw ->
    fstep y (goes_to q m (Anonymized c wr) (with_heap (<[c_uid c := raw]> (y_heap y)) y))
| fs_skip y q m c wr e : alive y -> y_marsh y !! q = Some m -> m_phase m = Holding (Some c, wr) ->
    anonymize anon (match ar_raw (current (y_heap y) c) with Some b => b | None => [] end) = Fail e ->
    fstep y (goes_to q m Idle y)
| fs_render y q m c wr : alive y -> y_marsh y !! q = Some m -> m_phase m = Anonymized c wr ->
    fstep y (goes_to q m (Rendered c (line (current (y_heap y) c)) wr) y)
| fs_write y q m c b wr fs : alive y -> y_marsh y !! q = Some m -> m_phase m = Rendered c b wr ->
    fwrite wr b (y_files y) = Some fs ->
    fstep y (goes_to q m (Newline c wr) (with_files fs y))
| fs_newline y q m c wr fs : alive y -> y_marsh y !! q = Some m -> m_phase m = Newline c wr ->
    fwrite wr nl (y_files y) = Some fs ->
    fstep y (goes_to q m Idle (with_files fs y)).

(** Every state that some schedule leads to. (saver/saver.go:65-92 and 331-496) *)
Definition freachable (bs : list block) (y : sys) : Prop := rtc fstep (initial cf bs) y.
End Faults.
