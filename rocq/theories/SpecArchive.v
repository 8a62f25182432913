(** Specification of the JSON lines: which records can be written, and what a
    record becomes when it is read back. *)
From Coq Require Import List NArith ZArith Bool.
From Verif Require Import GoBase Netlink SpecJson.
Import ListNotations.
Local Open Scope list_scope.

(** A time whose year, in its own location, is in 0..9999, and a location that is
    less than a day off UTC (all of them are).  The bounds are January 1 of the
    years 0 and 10000 in seconds of Unix time. *)
Definition writable_time (zone : Z -> Z) (t : Z) : Prop :=
  (-62167219200 * 1000000000 <= t + zone t * 60000000000 < 253402300800 * 1000000000)%Z /\ (-1440 < zone t < 1440)%Z.
Definition writable (zone : Z -> Z) (r : archival) : Prop :=
  writable_time zone (ar_time r) /\ forall md, ar_meta r = Some md -> writable_time zone (md_start md).
(** A UUID that is text, and a sequence number that is an int. *)
Definition proper_metadata (md : metadata) : Prop :=
  utf8 (md_uuid md) /\ (-9223372036854775808 <= md_seq md <= 9223372036854775807)%Z.

(** A slice with the same bytes and its own memory. *)
Definition fresh (s : gslice) : gslice := mkslice (vis s) [].
(** The same record; an empty RawIDM is nil. *)
Definition read_back (r : archival) : archival :=
  mkar (ar_time r) (match ar_raw r with Some [] => None | b => b end) (map (option_map fresh) (ar_attrs r)) (ar_meta r).
