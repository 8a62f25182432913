(** Basic vocabulary shared by the model: bytes, Go results, slices with
    capacity, little/big endian values and number formatting. *)
From Coq Require Import List NArith ZArith Lia Bool.
From Coq Require Export Init.Byte.
From Coq Require Strings.Byte Strings.String.
Import ListNotations.
Local Open Scope N_scope.

(** A Go string, or a []byte whose capacity does not matter (as
    netlink/archival-record.go:43 RawIDM). *)
Definition bytes := list byte.

(** Go string literals in the model. (as in saver/saver.go:127) *)
Definition str (s : String.string) : bytes := String.list_byte_of_string s.

(** Errors returned by the modelled functions (each is one Go error value or
    one family of library errors).
    (inetdiag/structs.go:44-53, 286 and 301, netlink/archival-record.go:98-173, 310-325 and 362-374) *)
Inductive goerr :=
| ErrNotType20          (* netlink/netlink_linux.go:14 *)
| ErrParseFailed        (* netlink/netlink_linux.go:15, inetdiag/structs.go:286 *)
| EINVAL                (* netlink/netlink_linux.go:45 *)
| ErrUnknownAF          (* inetdiag/structs.go:301 *)
| ErrBadSequence        (* inetdiag/structs.go:49 *)
| ErrBadPid             (* inetdiag/structs.go:46 *)
| ErrBadMsgData         (* inetdiag/structs.go:52 *)
| ErrEmptyRecord        (* snapshot/snapshot.go:21 *)
| ErrCookieZero         (* saver/saver.go:256 *)
| ErrNoMarshallers      (* saver/saver.go:47 *)
| ErrEOF                (* io.EOF *)
| ErrUnexpectedEOF      (* io.ErrUnexpectedEOF *)
| ErrSyntax             (* strconv.ErrSyntax *)
| ErrRange              (* strconv.ErrRange *)
| ErrInvalidIP          (* netlink/archival-record.go:78 *)
| ErrJSON               (* any json.Unmarshal error *)
| ErrNetClosed          (* net.ErrClosed, "use of closed network connection" *)
| ErrIO.                (* any other operating system error *)

(** Result of a Go call: normal return, returned error, run-time panic, or a
    loop that does not terminate (only ever produced by exhausted fuel, and
    proved unreachable where fuel is used). (as at netlink/archival-record.go:116-173) *)
Inductive outcome (A : Type) : Type :=
| Ret (a : A)
| Fail (e : goerr)
| Panic
| Diverge.
Arguments Ret {A} a.
Arguments Fail {A} e.
Arguments Panic {A}.
Arguments Diverge {A}.

(** if err != nil { return err }; a panic goes through as well (as at
    netlink/archival-record.go:145-148). *)
Definition bind {A B} (x : outcome A) (f : A -> outcome B) : outcome B :=
  match x with
  | Ret a => f a
  | Fail e => Fail e
  | Panic => Panic
  | Diverge => Diverge
  end.

(** A Go []byte: [vis] is s[0:len(s)], [spare] is the rest of the backing
    array up to cap(s). (as at netlink/archival-record.go:98-110) *)
Record gslice := mkslice { vis : bytes; spare : bytes }.

(** Numeric value of a byte. (as at inetdiag/structs.go:95) *)
Definition bval (b : byte) : N := Byte.to_N b.

(** Byte with the given value modulo 256 (Go's byte(x) conversion). (as at inetdiag/structs.go:82-88) *)
Definition byte_of (x : N) : byte :=
  match Byte.of_N (x mod 256) with Some b => b | None => x00 end.

(** encoding/binary LittleEndian.UintXX and the native loads through
    unsafe.Pointer on a little-endian host.
    (inetdiag/structs.go:95 and 198, netlink/archival-record.go:310-325) *)
Fixpoint le (l : bytes) : N :=
  match l with
  | [] => 0
  | b :: r => bval b + 256 * le r
  end.

(** encoding/binary BigEndian.UintXX. (inetdiag/structs.go:112, 121, 168, 185 and 192) *)
Definition be (l : bytes) : N := le (rev l).

(** [n]-byte little-endian encoding of [x]. (inetdiag/structs.go:73) *)
Fixpoint le_enc (n : nat) (x : N) : bytes :=
  match n with
  | O => []
  | S k => byte_of x :: le_enc k (x / 256)
  end.

(** [n] bytes of [l] starting at offset [o] (used only under a length guard).
    (as at inetdiag/structs.go:319-323) *)
Definition sub (o n : nat) (l : bytes) : bytes := firstn n (skipn o l).

(** Go's uint64 wrap-around. (as at saver/saver.go:191-194) *)
Definition two64 : N := 18446744073709551616.
(** uint64 +, as at saver/saver.go:322-323 *)
Definition u64_add (a b : N) : N := (a + b) mod two64.
(** uint64 -, as at saver/saver.go:409 *)
Definition u64_sub (a b : N) : N := (a + two64 - b mod two64) mod two64.

(** int64(x) for x uint64. (inetdiag/structs.go:161) *)
Definition to_int64 (x : N) : Z :=
  if x <? 9223372036854775808 then Z.of_N x else (Z.of_N x - 18446744073709551616)%Z.
(** uint64 reinterpretation of an int64. (inetdiag/structs.go:150) *)
Definition of_int64 (z : Z) : N := Z.to_N (z mod 18446744073709551616).

(** Bytewise equality of slices: 0 == bytes.Compare(a, b). (netlink/archival-record.go:220-301) *)
Fixpoint bytes_eqb (a b : bytes) : bool :=
  match a, b with
  | [], [] => true
  | x :: a', y :: b' => Byte.eqb x y && bytes_eqb a' b'
  | _, _ => false
  end.

(** time.Time{}: January 1, year 1, in nanoseconds since the Unix epoch. (snapshot/snapshot.go:298) *)
Definition zero_time : Z := (-62135596800000000000)%Z.

(** fmt %d for a non-negative number. (saver/saver.go:133) *)
Definition digit (n : N) : byte := byte_of (48 + n).
(** The decimal digits, last one first. (saver/saver.go:133) *)
Fixpoint dec_go (fuel : nat) (n : N) : bytes :=
  match fuel with
  | O => []
  | S f => if n <? 10 then [digit n] else digit (n mod 10) :: dec_go f (n / 10)
  end.
(** fmt %d, as at saver/saver.go:133 (inside %05d) *)
Definition dec (n : N) : bytes := rev (dec_go (S (N.size_nat n)) n).
(** fmt %d for an integer. (saver/saver.go:133) *)
Definition decZ (z : Z) : bytes :=
  if (z <? 0)%Z then x2d :: dec (Z.to_N (- z)) else dec (Z.to_N z).
(** fmt %0kd for a non-negative number. (saver/saver.go:133) *)
Definition dec_pad (k : nat) (n : N) : bytes :=
  let d := dec n in repeat x30 (k - length d) ++ d.

(** fmt %X, exactly k hexadecimal digits (used for x < 16^k, %016X of uint64).
    (for uuid.FromCookie, saver/saver.go:132) *)
Definition hexdigit (n : N) : byte := if n <? 10 then byte_of (48 + n) else byte_of (55 + n).
(** The hexadecimal digits, last one first. (for uuid.FromCookie, saver/saver.go:132) *)
Fixpoint hex_go (k : nat) (n : N) : bytes :=
  match k with
  | O => []
  | S f => hexdigit (n mod 16) :: hex_go f (n / 16)
  end.
(** fmt %016X of a uint64 (inside uuid.FromCookie, saver/saver.go:132) *)
Definition hex16 (n : N) : bytes := rev (hex_go 16 n).
