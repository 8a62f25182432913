(** What is to be expected of the files and the goroutines when compressors fail
    or hang. *)
From stdpp Require Import gmap.
From Coq Require Import NArith ZArith.
From Verif Require Import GoBase Netlink Cache Saver System SpecSystem Faults.

(** What arrives on the disk of the bytes d that are meant for a file. *)
Definition arrives (x : fate) (d : bytes) : bytes :=
  match x with Fails n => firstn n d | _ => d end.
Definition hangs (x : fate) : bool := match x with Hangs _ => true | _ => false end.
(** The file g as the disk has it. *)
Definition on_disk (x : fate) (g : option file) : option file :=
  match g with
  | Some f => Some (mkfile (f_path f) (arrives x (f_data f)) (f_open f))
  | None => None
  end.
(** Bytes b more do not fit into what the hanging compressor of wr accepts. *)
Definition too_much (fate_of : nat -> fate) (y : sys) (wr : nat) (b : bytes) : Prop :=
  exists n f, fate_of wr = Hangs n /\ y_files y !! wr = Some f /\ f_open f = true /\ n < length (f_data f) + length b.
(** A marshaller is inside a Write or a Close that does not return. *)
Definition held_up (fate_of : nat -> fate) (y : sys) (m : marsh) : Prop :=
  match m_phase m with
  | Holding (None, wr) => hangs (fate_of wr) = true /\ exists f, y_files y !! wr = Some f /\ f_open f = true
  | Rendered _ b wr => too_much fate_of y wr b
  | Newline _ wr => too_much fate_of y wr [x0a]
  | _ => False
  end.
(** A marshaller has nothing to do, or has returned. *)
Definition at_rest (m : marsh) : Prop :=
  m_chan m = [] /\ (m_phase m = Finished \/ (m_phase m = Idle /\ m_closed m = false)).
(** Where the saver goroutine is held up: in the header of a file, or in a send
    to a marshaller that is held up itself and whose channel is full. *)
Definition saver_held_up (fate_of : nat -> fate) (hline : metadata -> bytes) (cap : nat) (y : sys) : Prop :=
  match s_log (y_saver y) !! y_pc y with
  | Some (AHeader wr md) => too_much fate_of y wr (hline md ++ [x0a])
  | Some (ASend q _ _) => exists m, y_marsh y !! q = Some m /\ held_up fate_of y m /\ cap <= length (m_chan m)
  | _ => False
  end.
(** Nothing can move. *)
Definition stuck (fstep : sys -> sys -> Prop) (y : sys) : Prop := forall y', ~ fstep y y'.
