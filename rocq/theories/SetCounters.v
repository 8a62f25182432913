(** Model of SetBytesReceived and SetBytesSent of netlink/archival-record.go, with
    which the tests of other packages change the counters of a record. *)
From Coq Require Import List NArith Arith Bool.
From Verif Require Import GoBase Inetdiag Netlink.
Import ListNotations.

(** netlink/archival-record.go:430-432 and 449-451: the eight bytes at an offset of
    the attribute are overwritten in place, so that every slice of the same memory
    changes; here it is the record's own attribute.  [spare] is not touched. *)
Definition poke (off : nat) (value : N) (s : gslice) : gslice := mkslice (store off (le_enc 8 value) (vis s)) (spare s).

(** pm.Attributes with the attribute number [t] replaced
    (netlink/archival-record.go:426 and 444, where it changes in place) *)
Fixpoint replace (t : nat) (s : option gslice) (l : list (option gslice)) : list (option gslice) :=
  match l, t with
  | [], _ => []
  | _ :: r, O => s :: r
  | x :: r, S k => x :: replace k s r
  end.

(** netlink/archival-record.go:419-434 and 437-453: the two functions differ in the
    offset.  [in_test] is flag.Lookup("test.v") != nil; the result is the value
    returned and the record afterwards. *)
Definition set_counter (off : nat) (in_test : bool) (pm : archival) (value : N) : outcome (N * archival) :=
  if negb in_test then Panic
  else if (length (ar_attrs pm) <=? INET_DIAG_INFO)%nat then Ret (0%N, pm)
  else match nth INET_DIAG_INFO (ar_attrs pm) None with
       | None => Ret (0%N, pm)
       | Some raw =>
           if (length (vis raw) <? off + 8)%nat then Ret (0%N, pm)
           else Ret (le (sub off 8 (vis raw)),
                     mkar (ar_time pm) (ar_raw pm) (replace INET_DIAG_INFO (Some (poke off value raw)) (ar_attrs pm)) (ar_meta pm))
       end.

(** netlink/archival-record.go:419-434 SetBytesReceived *)
Definition set_bytes_received : bool -> archival -> N -> outcome (N * archival) := set_counter bytesReceivedOffset.

(** netlink/archival-record.go:437-453 SetBytesSent *)
Definition set_bytes_sent : bool -> archival -> N -> outcome (N * archival) := set_counter bytesSentOffset.
