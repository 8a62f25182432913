(** Model of the anonymizers of github.com/m-lab/go/anonymize, as main.go:142
    chooses one with -anonymize.ip and inetdiag/structs.go:308-329 calls it.  The
    source of that library is not at hand; this is from its documentation. *)
From Coq Require Import List NArith.
From Verif Require Import GoBase NetIP Flags.
Import ListNotations.
Local Open Scope list_scope.

(** netblockIPAnonymizer.IP, as a function from the old to the new contents of its
    argument: the last byte of an IPv4 address (whether in 4 or in 16 bytes) is set
    to zero, and the last eight of an IPv6 address. (inetdiag/structs.go:319-323) *)
Definition netblock_ip (ip : bytes) : bytes :=
  match to4 ip with
  | Some _ => firstn (length ip - 1) ip ++ [x00]
  | None => if Nat.eqb (length ip) 16 then firstn 8 ip ++ repeat x00 8 else ip
  end.
(** anonymize.New (main.go:142) *)
Definition main_anon (m : method) : bytes -> bytes :=
  match m with MNone => fun ip => ip | MNetblock => netblock_ip end.
