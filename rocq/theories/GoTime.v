(** Times: the parts of Go's package time used by tcp-info.  A time.Time in UTC
    is the number of nanoseconds since the Unix epoch, a [Z] (so the int64
    seconds of time.Time never overflow; monotonic readings and locations are
    left out: every formatted time is UTC). *)
From Coq Require Import Strings.String List NArith ZArith Bool.
From Verif Require Import GoBase.
Import ListNotations.
Local Open Scope Z_scope.
Local Open Scope list_scope.

(** time.Second (for the directory and file names of saver/saver.go:120-133) *)
Definition second : Z := 1000000000.
(** time.Minute, used at saver/saver.go:139 *)
Definition minute : Z := 60 * second.
(** time.Time.Unix (for the directory and file names of saver/saver.go:120-133) *)
Definition unix (t : Z) : Z := t / second.
(** time.Time{}.Unix(): January 1, year 1 (for the directory and file names of saver/saver.go:120-133) *)
Definition zero_unix : Z := unix zero_time.

(** Days since January 1 of year 1. (for the directory and file names of saver/saver.go:120-133) *)
Definition day_of (t : Z) : Z := unix t / 86400 + 719162.

(** time.isLeap (for the directory and file names of saver/saver.go:120-133) *)
Definition is_leap (y : Z) : bool := (y mod 4 =? 0) && (negb (y mod 100 =? 0) || (y mod 400 =? 0)).

(** time.daysBefore (for the directory and file names of saver/saver.go:120-133) *)
Definition days_before (m : Z) : Z :=
  nth (Z.to_nat m) [0; 31; 59; 90; 120; 151; 181; 212; 243; 273; 304; 334; 365] 0.

(** time.absDate: year and day in the year of a day number.  Simplification: Go
    counts from a multiple of 400 years earlier so that its unsigned arithmetic
    never sees a negative number; here the divisions are floor divisions.  GoDate.v
    has Go's arithmetic, which C21_go_time shows to be the same.  (for the directory and file names of saver/saver.go:120-133) *)
Definition year_yday (d : Z) : Z * Z :=
  let n := d / 146097 in
  let y := 400 * n in
  let d := d - 146097 * n in
  let n := d / 36524 in
  let n := n - n / 4 in
  let y := y + 100 * n in
  let d := d - 36524 * n in
  let n := d / 1461 in
  let y := y + 4 * n in
  let d := d - 1461 * n in
  let n := d / 365 in
  let n := n - n / 4 in
  (y + n + 1, d - 365 * n).

(** time.absDate: month and day of the month (for the directory and file names of saver/saver.go:120-133) *)
Definition month_day (leap : bool) (yday : Z) : Z * Z :=
  if leap && (yday =? 59) then (2, 29)
  else
    let day := if leap && (59 <? yday) then yday - 1 else yday in
    let month := day / 31 in
    if days_before (month + 1) <=? day
    then (month + 2, day - days_before (month + 1) + 1)
    else (month + 1, day - days_before month + 1).

(** time.Time.Date (for the directory and file names of saver/saver.go:120-133) *)
Definition date (t : Z) : Z * Z * Z :=
  let (y, yday) := year_yday (day_of t) in
  let (m, d) := month_day (is_leap y) yday in
  (y, m, d).

(** time.appendInt(b, x, width) (for the directory and file names of saver/saver.go:120-133) *)
Definition append_int (x : Z) (width : nat) : bytes :=
  if x <? 0 then x2d :: dec_pad width (Z.to_N (- x)) else dec_pad width (Z.to_N x).

(** Time.Format("2006/01/02") (for the directory and file names of saver/saver.go:120-133) *)
Definition format_date (t : Z) : bytes :=
  let '(y, m, d) := date t in
  append_int y 4 ++ [x2f] ++ append_int m 2 ++ [x2f] ++ append_int d 2.

(** Time.Clock and Nanosecond (for the directory and file names of saver/saver.go:120-133) *)
Definition clock_of (t : Z) : Z * Z * Z * Z :=
  let s := unix t mod 86400 in
  (s / 3600, s mod 3600 / 60, s mod 60, t mod second).
