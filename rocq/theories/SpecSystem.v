(** What the files of a run should contain, read off the saver's log. *)
From stdpp Require Import gmap.
From Coq Require Import NArith ZArith.
From Verif Require Import GoBase Netlink SpecNetlink SpecCompare Cache Saver SpecSaver System.

(** The header with the addresses passed through the anonymizer; an IPv4 address
    takes the first four bytes of its field.  Nothing for other families. *)
Definition hidden_header (anon : bytes -> bytes) (raw : bytes) : option bytes :=
  if length raw <? 72 then None
  else if N.eqb (hdr_family raw) 10
       then Some (at_ 0 8 raw ++ anon (at_ 8 16 raw) ++ anon (at_ 24 16 raw) ++ skipn 40 raw)
  else if N.eqb (hdr_family raw) 2
       then Some (at_ 0 8 raw ++ anon (at_ 8 4 raw) ++ at_ 12 12 raw ++ anon (at_ 24 4 raw) ++ skipn 28 raw)
  else None.
Definition hidden (anon : bytes -> bytes) (r : archival) : option archival :=
  match hidden_header anon (header r) with
  | Some h => Some (mkar (ar_time r) (Some h) (ar_attrs r) (ar_meta r))
  | None => None
  end.

Section Contents.
Variables (anon : bytes -> bytes) (line : archival -> bytes) (hline : metadata -> bytes).
(** The line an action puts into its file. *)
Definition file_line (a : action) : bytes :=
  match a with
  | AHeader _ md => hline md ++ [x0a]
  | ASend _ (Some c) _ => match hidden anon (c_ar c) with Some r => line r ++ [x0a] | None => [] end
  | _ => []
  end.
(** The contents of file wr after the actions l. *)
Definition contents (wr : nat) (l : list action) : bytes := concat (map file_line (file_actions wr l)).
Definition is_create (a : action) : bool := match a with ACreate _ _ => true | _ => false end.
Definition is_closing (a : action) : bool := match a with ASend _ None _ => true | _ => false end.
Definition created (wr : nat) (l : list action) : bool := existsb is_create (file_actions wr l).
Definition ended_file (wr : nat) (l : list action) : bool := existsb is_closing (file_actions wr l).
(** File wr when everything in l has been done. *)
Definition final_file (wr : nat) (l : list action) : option file :=
  match file_actions wr l with
  | ACreate _ path :: _ => Some (mkfile path (contents wr l) (negb (ended_file wr l)))
  | _ => None
  end.
End Contents.
(** Everything has been done: the saver goroutine and all marshallers have
    returned, no task is left, and Done.Wait() returns. *)
Definition finished (y : sys) : Prop :=
  y_panic y = false /\ y_jobs y = [] /\ y_pc y = length (s_log (y_saver y)) /\ y_wg y = 0 /\
  Forall (fun m => m_phase m = Finished /\ m_chan m = [] /\ m_closed m = true) (y_marsh y).
