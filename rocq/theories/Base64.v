(** Model of encoding/base64's StdEncoding, which encoding/json uses for the
    []byte fields of netlink.ArchivalRecord (netlink/archival-record.go:43-45:
    RawIDM and Attributes). *)
From Coq Require Import Strings.String List NArith ZArith Bool.
From Verif Require Import GoBase.
Import ListNotations.
Local Open Scope N_scope.
Local Open Scope list_scope.

(** base64.encodeStd (for the []byte values of netlink/archival-record.go:43 and 45) *)
Definition alphabet : bytes := str "ABCDEFGHIJKLMNOPQRSTUVWXYZabcdefghijklmnopqrstuvwxyz0123456789+/".
(** enc.encode[i & 0x3F] (for the []byte values of netlink/archival-record.go:43 and 45) *)
Definition b64_char (i : N) : byte := nth (N.to_nat (i mod 64)) alphabet x00.
(** enc.decodeMap[c], None for 0xFF (for the []byte values of netlink/archival-record.go:43 and 45) *)
Fixpoint index_of (c : byte) (l : bytes) (i : N) : option N :=
  match l with
  | [] => None
  | x :: r => if Byte.eqb x c then Some i else index_of c r (i + 1)
  end.
(** enc.decodeMap[c], None for 0xFF (for the []byte values of netlink/archival-record.go:43 and 45) *)
Definition b64_value (c : byte) : option N := index_of c alphabet 0.
(** base64.StdPadding (for the []byte values of netlink/archival-record.go:43 and 45) *)
Definition pad : byte := x3d.

(** Encoding.Encode (for the []byte values of netlink/archival-record.go:43 and 45) *)
Fixpoint b64_encode (l : bytes) : bytes :=
  match l with
  | a :: b :: c :: r =>
      let v := bval a * 65536 + bval b * 256 + bval c in
      [b64_char (v / 262144); b64_char (v / 4096); b64_char (v / 64); b64_char v] ++ b64_encode r
  | [a; b] =>
      let v := bval a * 65536 + bval b * 256 in
      [b64_char (v / 262144); b64_char (v / 4096); b64_char (v / 64); pad]
  | [a] =>
      let v := bval a * 65536 in
      [b64_char (v / 262144); b64_char (v / 4096); pad; pad]
  | [] => []
  end.

(** Encoding.Decode with decodeQuantum, on input without line ends.  The fast
    paths of Decode give the same bytes.  As StdEncoding is not strict, bits
    after the last byte are ignored. (for the []byte values of netlink/archival-record.go:43 and 45) *)
Fixpoint b64_quanta (l : bytes) : option bytes :=
  match l with
  | [] => Some []
  | a :: b :: c :: d :: r =>
      match b64_value a, b64_value b with
      | Some i, Some j =>
          if Byte.eqb d pad then
            match r with
            | [] =>
                if Byte.eqb c pad then Some [byte_of (i * 4 + j / 16)]
                else match b64_value c with
                     | Some k => Some [byte_of (i * 4 + j / 16); byte_of (j * 16 + k / 4)]
                     | None => None
                     end
            | _ => None
            end
          else
            match b64_value c, b64_value d, b64_quanta r with
            | Some k, Some m, Some t =>
                Some (byte_of (i * 4 + j / 16) :: byte_of (j * 16 + k / 4) :: byte_of (k * 64 + m) :: t)
            | _, _, _ => None
            end
      | _, _ => None
      end
  | _ => None
  end.
(** Encoding.Decode: decodeQuantum skips \r and \n wherever they are
    (for the []byte values of netlink/archival-record.go:43 and 45) *)
Definition b64_decode (l : bytes) : option bytes :=
  b64_quanta (filter (fun c => negb (Byte.eqb c x0a || Byte.eqb c x0d)) l).
