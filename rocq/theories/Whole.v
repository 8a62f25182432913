(** Model of the whole program with its output directory: the process of Program.v
    together with the files on disk of Disk.v.  (main.go:82-153, zstd/zstd.go:64-88) *)
From stdpp Require Import gmap relations.
From Coq Require Import NArith ZArith.
From Verif Require Import GoBase Inetdiag Netlink Cache Saver System Program Disk.
From Verif Require EventServer Collector.

Section Whole.
Variables (w : world) (cf : config) (cap : nat) (anon : bytes -> bytes) (line : archival -> bytes) (hline : metadata -> bytes).
Variables (v : Collector.environment) (reps : Z) (on : bool) (marshal : EventServer.flow_event -> option bytes).
(** The compressor, as in Disk.v. *)
Variable (z : bytes -> bytes).

(** A step of the process, with what it does on disk, or output of a compressor
    that has not ended, as in Disk.v.  When main has returned no compressor is left
    (C55_files), so that the process may be ended. (main.go:147-153,
    zstd/zstd.go:50-57 and 76-81) *)
Inductive whole : prog * disk -> prog * disk -> Prop :=
| wh_move g g' k : moves w cf cap anon line hline v reps on marshal g g' ->
    (forall wr f f', y_files (g_sys g) !! wr = Some f -> y_files (g_sys g') !! wr = Some f' -> f_open f = true -> f_open f' = false ->
      d_out k wr = z (f_data f)) ->
    whole (g, k) (g', at_once (g_sys g) (g_sys g') k)
| wh_flush g k wr f x : y_files (g_sys g) !! wr = Some f -> f_open f = true -> whole (g, k) (g, flush wr (f_path f) x k).

(** Every state that some schedule leads to, in an output directory with the files
    k0. (main.go:82-153) *)
Definition run_of (k0 : bytes -> option bytes) (s : prog * disk) : Prop := rtc whole (start cf, mkdisk k0 (fun _ => [])) s.
End Whole.
