(** The calendar of Go's package time as it is computed: seconds since a year far
    back as a uint64, and uint64 arithmetic throughout. *)
From Coq Require Import List NArith ZArith Bool.
From Verif Require Import GoBase GoTime.
Import ListNotations.
Local Open Scope Z_scope.

(** A uint64 (for the names of saver/saver.go:120-133) *)
Definition u64z (x : Z) : Z := x mod 18446744073709551616.
(** Conversion to int64 (for the names of saver/saver.go:120-133) *)
Definition i64z (x : Z) : Z := (x + 9223372036854775808) mod 18446744073709551616 - 9223372036854775808.
(** time.absoluteZeroYear, unixToInternal and internalToAbsolute
    (for the names of saver/saver.go:120-133) *)
Definition absolute_zero_year : Z := -292277022399.
(** see [absolute_zero_year] (for the names of saver/saver.go:120-133) *)
Definition unix_to_internal : Z := (1969 * 365 + 1969 / 4 - 1969 / 100 + 1969 / 400) * 86400.
(** see [absolute_zero_year] (for the names of saver/saver.go:120-133) *)
Definition internal_to_absolute : Z := 9223371966579724800.
(** Time.abs of a time in UTC with the given Unix seconds: an int64 sum, converted
    (for the names of saver/saver.go:120-133) *)
Definition go_abs (sec : Z) : Z := u64z (i64z (sec + (unix_to_internal + internal_to_absolute))).
(** time.absDate, year and day of the year (for the names of saver/saver.go:120-133) *)
Definition go_year_yday (abs : Z) : Z * Z :=
  let d := abs / 86400 in
  let n := d / 146097 in
  let y := u64z (400 * n) in
  let d := u64z (d - u64z (146097 * n)) in
  let n := d / 36524 in
  let n := u64z (n - Z.shiftr n 2) in
  let y := u64z (y + u64z (100 * n)) in
  let d := u64z (d - u64z (36524 * n)) in
  let n := d / 1461 in
  let y := u64z (y + u64z (4 * n)) in
  let d := u64z (d - u64z (1461 * n)) in
  let n := d / 365 in
  let n := u64z (n - Z.shiftr n 2) in
  let y := u64z (y + n) in
  let d := u64z (d - u64z (365 * n)) in
  (i64z (i64z y + absolute_zero_year), i64z d).
(** Time.Date (for the names of saver/saver.go:120-133) *)
Definition go_date (t : Z) : Z * Z * Z :=
  let (y, yday) := go_year_yday (go_abs (unix t)) in
  let (m, d) := month_day (is_leap y) yday in
  (y, m, d).
(** Time.Clock (time.absClock) and Time.Nanosecond (for the lines of
    saver/saver.go:79-80) *)
Definition go_clock (t : Z) : Z * Z * Z * Z :=
  let sec := go_abs (unix t) mod 86400 in
  let hour := sec / 3600 in
  let sec := sec - hour * 3600 in
  let min := sec / 60 in
  (hour, min, sec - min * 60, t mod second).
