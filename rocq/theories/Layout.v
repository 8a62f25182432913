(** Go/C struct layout: offsets and sizes of the structs that the code reads
    through unsafe.Pointer.  Models unsafe.Offsetof / unsafe.Sizeof and the
    native field loads on a little-endian 64-bit host (linux/amd64). *)
From Coq Require Import Strings.String List NArith ZArith Arith.
From Verif Require Import GoBase.
Import ListNotations.

(** Kinds of fields that occur in the modelled structs.  [Arr n] is [n]byte or
    a nested struct made only of byte arrays (size n, alignment 1).
    (for inetdiag/structs.go:57-68, 129-136 and 243-257, tcp/tcpinfo.go:58-136) *)
Inductive fkind := U8 | U16 | U32 | U64 | I32 | I64 | Arr (n : nat).

(** unsafe.Sizeof of a field (for inetdiag/structs.go:57-68, 129-136 and 243-257, tcp/tcpinfo.go:58-136) *)
Definition fsize (k : fkind) : nat :=
  match k with U8 => 1 | U16 => 2 | U32 => 4 | I32 => 4 | U64 => 8 | I64 => 8 | Arr n => n end.
(** unsafe.Alignof of a field (for inetdiag/structs.go:57-68, 129-136 and 243-257, tcp/tcpinfo.go:58-136) *)
Definition falign (k : fkind) : nat :=
  match k with U8 => 1 | U16 => 2 | U32 => 4 | I32 => 4 | U64 => 8 | I64 => 8 | Arr _ => 1 end.

(** A struct type: the names and kinds of its fields.
    (for inetdiag/structs.go:57-68, 129-136 and 243-257, tcp/tcpinfo.go:58-136) *)
Definition struct := list (string * fkind).

(** Go's layout rule: each field at the next multiple of its alignment.
    (for inetdiag/structs.go:57-68, 129-136 and 243-257, tcp/tcpinfo.go:58-136) *)
Definition align_up (a o : nat) : nat := a * ((o + (a - 1)) / a).

(** Name, offset and kind of the fields from offset [o] on.
    (for inetdiag/structs.go:57-68, 129-136 and 243-257, tcp/tcpinfo.go:58-136) *)
Fixpoint layout_from (o : nat) (s : struct) : list (string * nat * fkind) :=
  match s with
  | [] => []
  | (f, k) :: r => let p := align_up (falign k) o in (f, p, k) :: layout_from (p + fsize k) r
  end.
(** Offsets of all fields (for inetdiag/structs.go:57-68, 129-136 and 243-257, tcp/tcpinfo.go:58-136) *)
Definition layout (s : struct) := layout_from 0 s.

(** unsafe.Alignof of a struct (for inetdiag/structs.go:57-68, 129-136 and 243-257, tcp/tcpinfo.go:58-136) *)
Definition struct_align (s : struct) : nat := fold_right (fun fk a => Nat.max (falign (snd fk)) a) 1 s.
(** The offset after the last field.
    (for inetdiag/structs.go:57-68, 129-136 and 243-257, tcp/tcpinfo.go:58-136) *)
Definition struct_end (s : struct) : nat :=
  fold_left (fun o (fk : string * fkind) => align_up (falign (snd fk)) o + fsize (snd fk)) s 0.
(** unsafe.Sizeof (for inetdiag/structs.go:57-68, 129-136 and 243-257, tcp/tcpinfo.go:58-136) *)
Definition sizeof (s : struct) : nat := align_up (struct_align s) (struct_end s).

(** unsafe.Offsetof (None if there is no such field: a compile error in Go)
    (for inetdiag/structs.go:57-68, 129-136 and 243-257, tcp/tcpinfo.go:58-136) *)
Definition offsetof (s : struct) (f : string) : option nat :=
  match find (fun x => String.eqb (fst (fst x)) f) (layout s) with
  | Some (_, p, _) => Some p
  | None => None
  end.

(** Values of fields. (for inetdiag/structs.go:57-68, 129-136 and 243-257, tcp/tcpinfo.go:58-136) *)
Inductive fval := VInt (z : Z) | VBytes (b : bytes).

(** Conversion of an unsigned to a signed integer of the same size
    (for inetdiag/structs.go:57-68, 129-136 and 243-257, tcp/tcpinfo.go:58-136) *)
Definition sign_extend (bits : Z) (n : N) : Z :=
  let z := Z.of_N n in if (z <? 2 ^ (bits - 1))%Z then z else (z - 2 ^ bits)%Z.

(** The value of a field, read from its bytes (little-endian host).
    (for inetdiag/structs.go:57-68, 129-136 and 243-257, tcp/tcpinfo.go:58-136) *)
Definition load (k : fkind) (b : bytes) : fval :=
  match k with
  | U8 | U16 | U32 | U64 => VInt (Z.of_N (le b))
  | I32 => VInt (sign_extend 32 (le b))
  | I64 => VInt (sign_extend 64 (le b))
  | Arr _ => VBytes b
  end.

(** Reading a whole struct from memory (mem has at least sizeof s bytes).
    (for inetdiag/structs.go:57-68, 129-136 and 243-257, tcp/tcpinfo.go:58-136) *)
Definition load_struct (s : struct) (mem : bytes) : list (string * fval) :=
  map (fun x => match x with (f, p, k) => (f, load k (sub p (fsize k) mem)) end) (layout s).

(** A field by its name. (for inetdiag/structs.go:57-68, 129-136 and 243-257, tcp/tcpinfo.go:58-136) *)
Definition get_field (f : string) (v : list (string * fval)) : option fval :=
  match find (fun x => String.eqb (fst x) f) v with Some (_, w) => Some w | None => None end.
