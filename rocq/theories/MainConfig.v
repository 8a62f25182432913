(** Model of the exclusion configuration made by main.go from its flags. *)
From Coq Require Import List.
From Verif Require Import GoBase Netlink.
Import ListNotations.

(** main.go:120-126 and 129-135: one loop over the values of a flag; a value with
    an error is logged and skipped. *)
Definition add_all (add : exclude_config -> bytes -> outcome exclude_config) (ex : exclude_config) (values : list bytes) : exclude_config :=
  fold_left (fun ex v => match add ex v with Ret ex' => ex' | _ => ex end) values ex.

(** main.go:115-136.  [dips] and [ports] are the values of -exclude-dstip and
    -exclude-srcport; how flagx.StringArray gets them is in Flags.v. *)
Definition main_config (dips ports : list bytes) : exclude_config :=
  add_all add_src_port (add_all add_dst_ip (mkex true None None) dips) ports.
