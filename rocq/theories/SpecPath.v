(** The names of files, in words: the calendar, numerals, and the path. *)
From Coq Require Import Strings.String List NArith ZArith.
From Verif Require Import GoBase.
Import ListNotations.
Local Open Scope list_scope.
Local Open Scope Z_scope.

(** * The calendar: one day after the other *)

Definition leap_year (y : Z) : Prop := (4 | y) /\ (~ (100 | y) \/ (400 | y)).
Inductive last_of_month : Z -> Z -> Z -> Prop :=
| lm_long y m : In m [1; 3; 5; 7; 8; 10; 12] -> last_of_month y m 31
| lm_short y m : In m [4; 6; 9; 11] -> last_of_month y m 30
| lm_leap y : leap_year y -> last_of_month y 2 29
| lm_common y : ~ leap_year y -> last_of_month y 2 28.
(** The day after a day. *)
Inductive tomorrow : Z * Z * Z -> Z * Z * Z -> Prop :=
| tm_day y m d l : last_of_month y m l -> 1 <= d < l -> tomorrow (y, m, d) (y, m, d + 1)
| tm_month y m d : last_of_month y m d -> m < 12 -> tomorrow (y, m, d) (y, m + 1, 1)
| tm_year y : tomorrow (y, 12, 31) (y + 1, 1, 1).
(** Day n counted from the first day of 1970. *)
Inductive day_is : Z -> Z * Z * Z -> Prop :=
| di_epoch : day_is 0 (1970, 1, 1)
| di_later n x y : day_is n x -> tomorrow x y -> day_is (n + 1) y
| di_earlier n x y : day_is (n + 1) y -> tomorrow x y -> day_is n x.
(** The date, in UTC, at a time in nanoseconds since the beginning of 1970. *)
Definition date_at (t : Z) (x : Z * Z * Z) : Prop :=
  exists n, n * 86400000000000 <= t < (n + 1) * 86400000000000 /\ day_is n x.

(** * Numerals *)

(** What a digit means: 0 to 9, A to F. *)
Definition digit_means (c : byte) (d : N) : Prop :=
  (48 <= bval c <= 57 /\ d = bval c - 48 \/ 65 <= bval c <= 70 /\ d = bval c - 55)%N.
Inductive numeral (base : N) : bytes -> N -> Prop :=
| nu_nil : numeral base [] 0
| nu_snoc t n c d : numeral base t n -> digit_means c d -> (d < base)%N -> numeral base (t ++ [c]) (base * n + d).
(** With zeros in front up to a width, and none beyond it. *)
Definition padded (base : N) (width : nat) (t : bytes) (n : N) : Prop :=
  numeral base t n /\ (length t = width \/ (width < length t)%nat /\ forall r, t <> x30 :: r).

(** * The path YYYY/MM/DD/prefix_COOKIE.NNNNN.jsonl.zst *)
Definition path_of (prefix : bytes) (t : Z) (cookie : N) (seq : nat) (p : bytes) : Prop :=
  exists y m d Y M D K N, date_at t (y, m, d) /\
    padded 10 4 Y (Z.to_N y) /\ padded 10 2 M (Z.to_N m) /\ padded 10 2 D (Z.to_N d) /\
    padded 16 16 K cookie /\ padded 10 5 N (N.of_nat seq) /\
    p = Y ++ str "/" ++ M ++ str "/" ++ D ++ str "/" ++ prefix ++ str "_" ++ K ++ str "." ++ N ++ str ".jsonl.zst".
