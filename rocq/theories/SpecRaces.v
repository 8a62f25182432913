(** Who does what: the goroutines of the saver package, the memory and the
    writers each of them is about to touch, and when two steps are by different
    goroutines. *)
From stdpp Require Import gmap.
From Coq Require Import NArith ZArith.
From Verif Require Import GoBase Inetdiag Netlink Cache Saver System.

(** The saver goroutine, and the marshaller that reads channel q. *)
Inductive who := TheSaver | Marshaller (q : nat).

(** Marshaller q has been given task t and is not done with it. *)
Definition has_task (q : nat) (t : task) (y : sys) : Prop :=
  exists m, y_marsh y !! q = Some m /\
    (t ∈ m_chan m \/
     match m_phase m with
     | Holding t' => t' = t
     | Anonymized c wr | Rendered c _ wr | Newline c wr => (Some c, wr) = t
     | Idle | Finished => False
     end).

(** The next thing g does is a call of Write or Close of writer wr (or, for the
    saver, making it). *)
Definition on_writer (g : who) (wr : nat) (y : sys) : Prop :=
  match g with
  | TheSaver => exists a, s_log (y_saver y) !! y_pc y = Some a /\
      ((exists path, a = ACreate wr path) \/ (exists md, a = AHeader wr md))
  | Marshaller q => exists m, y_marsh y !! q = Some m /\
      match m_phase m with
      | Holding (None, wr') => wr' = wr
      | Rendered _ _ wr' | Newline _ wr' => wr' = wr
      | _ => False
      end
  end.

(** The next thing marshaller q does is to anonymize record u or to encode it. *)
Definition on_record (q : nat) (u : nat) (y : sys) : Prop :=
  exists m, y_marsh y !! q = Some m /\
    match m_phase m with
    | Holding (Some c, _) | Anonymized c _ => c_uid c = u
    | _ => False
    end.

(** Equal but for the bytes of the addresses, bytes 8 to 39 of the header. *)
Definition but_addresses (r r' : archival) : Prop :=
  ar_time r' = ar_time r /\ ar_attrs r' = ar_attrs r /\ ar_meta r' = ar_meta r /\
  match ar_raw r, ar_raw r' with
  | Some b, Some b' => length b' = length b /\ firstn 8 b' = firstn 8 b /\ skipn 40 b' = skipn 40 b
  | None, None => True
  | _, _ => False
  end.

(** The saver has record c in its cache, or has queued it. *)
Definition saver_has (c : cell) (s : saver) : Prop :=
  (exists k, cur (s_cache s) !! k = Some c \/ prev (s_cache s) !! k = Some c) \/
  (exists q wr, ASend q (Some c) wr ∈ s_log s).

(** The step from y to y' is one of g. *)
Definition phase_of (q : nat) (y : sys) : option phase := m_phase <$> y_marsh y !! q.
Definition moved (g : who) (y y' : sys) : Prop :=
  match g with
  | TheSaver => y_pc y' <> y_pc y \/ y_jobs y' <> y_jobs y
  | Marshaller q => y_pc y' = y_pc y /\ y_jobs y' = y_jobs y /\ phase_of q y' <> phase_of q y
  end.
