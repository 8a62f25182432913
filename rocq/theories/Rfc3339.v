(** Model of the RFC 3339 text of a time.Time, which is how encoding/json writes
    and reads the Timestamp of an ArchivalRecord (netlink/archival-record.go:39),
    the StartTime of its Metadata (line 32) and the Timestamp of a FlowEvent
    (eventsocket/server.go:36): Time.MarshalJSON and Time.UnmarshalJSON of Go
    1.20.  A time is an instant in nanoseconds; its location is the number of
    minutes by which local time is ahead of UTC.  Simplification: offsets that are
    not whole minutes (no present zone has one) are left out. *)
From Coq Require Import Strings.String List NArith ZArith Bool.
From Verif Require Import GoBase GoTime.
Import ListNotations.
Local Open Scope Z_scope.
Local Open Scope list_scope.

(** time.appendNano: the nine digits without the zeros at the end
    (for the times of netlink/archival-record.go:32 and 39, eventsocket/server.go:36) *)
Fixpoint drop_zeros (l : bytes) : bytes :=
  match l with x30 :: r => drop_zeros r | _ => l end.
(** time.appendNano: the fractional second
    (for the times of netlink/archival-record.go:32 and 39, eventsocket/server.go:36) *)
Definition nano (ns : Z) : bytes :=
  match drop_zeros (rev (dec_pad 9 (Z.to_N ns))) with
  | [] => []
  | d => x2e :: rev d
  end.
(** Time.appendFormatRFC3339: the zone
    (for the times of netlink/archival-record.go:32 and 39, eventsocket/server.go:36) *)
Definition zone_text (off : Z) : bytes :=
  if off =? 0 then [x5a]
  else (if off <? 0 then x2d else x2b) :: append_int (Z.abs off / 60) 2 ++ [x3a] ++ append_int (Z.abs off mod 60) 2.
(** Time.appendFormatRFC3339(b, true)
    (for the times of netlink/archival-record.go:32 and 39, eventsocket/server.go:36) *)
Definition rfc3339 (off t : Z) : bytes :=
  let u := t + off * minute in
  let '(y, m, d) := date u in
  let '(hh, mm, ss, ns) := clock_of u in
  append_int y 4 ++ [x2d] ++ append_int m 2 ++ [x2d] ++ append_int d 2 ++ [x54]
  ++ append_int hh 2 ++ [x3a] ++ append_int mm 2 ++ [x3a] ++ append_int ss 2 ++ nano ns ++ zone_text off.
(** Time.MarshalJSON (appendStrictRFC3339), without the quotes: the year must
    have four digits and the zone less than 24 hours
    (for the times of netlink/archival-record.go:32 and 39, eventsocket/server.go:36) *)
Definition marshal_time (off t : Z) : option bytes :=
  let '(y, _, _) := date (t + off * minute) in
  if (0 <=? y) && (y <=? 9999) && (Z.abs off / 60 <? 24) then Some (rfc3339 off t) else None.

(** time.daysIn (for the times of netlink/archival-record.go:32 and 39, eventsocket/server.go:36) *)
Definition days_in (y m : Z) : Z :=
  if (m =? 2) && is_leap y then 29 else days_before m - days_before (m - 1).
(** time.daysSinceEpoch: days from January 1, year 1 to January 1 of a year
    (for the times of netlink/archival-record.go:32 and 39, eventsocket/server.go:36) *)
Definition days_since (year : Z) : Z :=
  let y := year - 1 in
  let n := y / 400 in
  let y := y - 400 * n in
  let d := 146097 * n in
  let n := y / 100 in
  let y := y - 100 * n in
  let d := d + 36524 * n in
  let n := y / 4 in
  let y := y - 4 * n in
  let d := d + 1461 * n in
  d + 365 * y.
(** time.Date(y, m, d, hh, mm, ss, ns, UTC) with all arguments in range
    (for the times of netlink/archival-record.go:32 and 39, eventsocket/server.go:36) *)
Definition make_date (y m d hh mm ss ns : Z) : Z :=
  let days := days_since y + days_before (m - 1) + (if is_leap y && (3 <=? m) then 1 else 0) + (d - 1) in
  ((days - 719162) * 86400 + hh * 3600 + mm * 60 + ss) * second + ns.

(** A decimal digit. (for the times of netlink/archival-record.go:32 and 39, eventsocket/server.go:36) *)
Definition digit_char (c : byte) : bool := ((48 <=? bval c) && (bval c <=? 57))%N.
(** The closure parseUint of time.parseRFC3339
    (for the times of netlink/archival-record.go:32 and 39, eventsocket/server.go:36) *)
Fixpoint uint_go (x : Z) (s : bytes) : option Z :=
  match s with
  | [] => Some x
  | c :: r => if digit_char c then uint_go (x * 10 + (Z.of_N (bval c) - 48)) r else None
  end.
(** parseUint of time.parseRFC3339 with its bounds
    (for the times of netlink/archival-record.go:32 and 39, eventsocket/server.go:36) *)
Definition parse_uint (s : bytes) (lo hi : Z) : option Z :=
  match uint_go 0 s with
  | Some x => if (x <? lo) || (hi <? x) then None else Some x
  | None => None
  end.
(** The digits at the beginning of s, and the rest
    (for the times of netlink/archival-record.go:32 and 39, eventsocket/server.go:36) *)
Fixpoint span_digits (s : bytes) : bytes * bytes :=
  match s with
  | c :: r => if digit_char c then let (a, b) := span_digits r in (c :: a, b) else ([], s)
  | [] => ([], [])
  end.
(** time.parseRFC3339: the fractional second.  time.parseNanoseconds ignores
    digits after the ninth.
    (for the times of netlink/archival-record.go:32 and 39, eventsocket/server.go:36) *)
Definition parse_nano (s : bytes) : Z * bytes :=
  match s with
  | x2e :: r =>
      match span_digits r with
      | ([], _) => (0, s)
      | (ds, r') =>
          let ds := firstn 9 ds in
          (match uint_go 0 ds with Some x => x | None => 0 end * 10 ^ (9 - Z.of_nat (length ds)), r')
      end
  | _ => (0, s)
  end.
(** The zone, in minutes, with at most hmax hours and mmax minutes
    (for the times of netlink/archival-record.go:32 and 39, eventsocket/server.go:36) *)
Definition zone_in (hmax mmax : Z) (s : bytes) : option Z :=
  match s with
  | [z] => if Byte.eqb z x5a then Some 0 else None
  | [sg; a; b; q; c; d] =>
      if Byte.eqb q x3a then
        match parse_uint [a; b] 0 hmax, parse_uint [c; d] 0 mmax with
        | Some h, Some m =>
            if Byte.eqb sg x2d then Some (- (h * 60 + m))
            else if Byte.eqb sg x2b then Some (h * 60 + m) else None
        | _, _ => None
        end
      else None
  | _ => None
  end.
(** time.parseRFC3339: the zone
    (for the times of netlink/archival-record.go:32 and 39, eventsocket/server.go:36) *)
Definition parse_zone (s : bytes) : option Z := zone_in 23 59 s.
(** time.parseRFC3339
    (for the times of netlink/archival-record.go:32 and 39, eventsocket/server.go:36) *)
Definition parse_rfc3339 (s : bytes) : option Z :=
  match s with
  | y1 :: y2 :: y3 :: y4 :: x2d :: m1 :: m2 :: x2d :: d1 :: d2 :: x54 :: h1 :: h2 :: x3a :: i1 :: i2 :: x3a :: s1 :: s2 :: r =>
      match parse_uint [y1; y2; y3; y4] 0 9999, parse_uint [m1; m2] 1 12 with
      | Some y, Some m =>
          match parse_uint [d1; d2] 1 (days_in y m), parse_uint [h1; h2] 0 23,
                parse_uint [i1; i2] 0 59, parse_uint [s1; s2] 0 59 with
          | Some d, Some hh, Some mm, Some ss =>
              let (ns, r') := parse_nano r in
              match parse_zone r' with
              | Some off => Some (make_date y m d hh mm ss ns - off * minute)
              | None => None
              end
          | _, _, _, _ => None
          end
      | _, _ => None
      end
  | _ => None
  end.

(** time.getnum: one or two digits, or just two
    (for the times of netlink/archival-record.go:32 and 39, eventsocket/server.go:36) *)
Definition getnum (fixed : bool) (s : bytes) : option (Z * bytes) :=
  match s with
  | a :: r =>
      if digit_char a then
        match r with
        | b :: r' =>
            if digit_char b then Some ((Z.of_N (bval a) - 48) * 10 + (Z.of_N (bval b) - 48), r')
            else if fixed then None else Some (Z.of_N (bval a) - 48, r)
        | [] => if fixed then None else Some (Z.of_N (bval a) - 48, [])
        end
      else None
  | [] => None
  end.
(** time.skip of one character of the layout
    (for the times of netlink/archival-record.go:32 and 39, eventsocket/server.go:36) *)
Definition skip (c : byte) (s : bytes) : option bytes :=
  match s with x :: r => if Byte.eqb x c then Some r else None | [] => None end.
(** time.parse: a number of the layout, its bounds and the character after it
    (for the times of netlink/archival-record.go:32 and 39, eventsocket/server.go:36) *)
Definition field (fixed : bool) (lo hi : Z) (c : byte) (s : bytes) : option (Z * bytes) :=
  match getnum fixed s with
  | Some (x, r) => if (x <? lo) || (hi <? x) then None else option_map (fun r' => (x, r')) (skip c r)
  | None => None
  end.
(** time.parse: the year, four digits and the character after them
    (for the times of netlink/archival-record.go:32 and 39, eventsocket/server.go:36) *)
Definition field_year (c : byte) (s : bytes) : option (Z * bytes) :=
  match parse_uint (firstn 4 s) 0 9999 with
  | Some y => if (length s <? 4)%nat then None else option_map (fun r => (y, r)) (skip c (skipn 4 s))
  | None => None
  end.
(** time.parse: the fractional second after stdZeroSecond, after a comma or a period
    (for the times of netlink/archival-record.go:32 and 39, eventsocket/server.go:36) *)
Definition lax_nano (s : bytes) : Z * bytes :=
  match s with
  | x2c :: d :: r => if digit_char d then parse_nano (x2e :: d :: r) else (0, s)
  | _ => parse_nano s
  end.
(** time.parse(RFC3339, s, UTC, Local) of Go 1.20: the day is checked at the end, the
    offset not at all.
    (for the times of netlink/archival-record.go:32 and 39, eventsocket/server.go:36) *)
Definition parse_lax (s : bytes) : option Z :=
  match field_year x2d s with
  | None => None
  | Some (y, s) =>
  match field true 1 12 x2d s with
  | None => None
  | Some (m, s) =>
  match field true 0 99 x54 s with
  | None => None
  | Some (d, s) =>
  match field false 0 23 x3a s with
  | None => None
  | Some (hh, s) =>
  match field true 0 59 x3a s with
  | None => None
  | Some (mm, s) =>
  match getnum true s with
  | None => None
  | Some (ss, s) =>
      if 59 <? ss then None
      else let (ns, s) := lax_nano s in
           match zone_in 99 99 s with
           | Some off => if (d <? 1) || (days_in y m <? d) then None else Some (make_date y m d hh mm ss ns - off * minute)
           | None => None
           end
  end end end end end end.
(** Time.UnmarshalJSON of a string literal, given without its quotes:
    time.parseStrictRFC3339, which in Go 1.20 (the version of the Dockerfile) tries
    the lenient time.Parse when parseRFC3339 fails, without its checks for strictness.
    (for the times of netlink/archival-record.go:32 and 39, eventsocket/server.go:36) *)
Definition unmarshal_time (s : bytes) : option Z :=
  match parse_rfc3339 s with Some t => Some t | None => parse_lax s end.
