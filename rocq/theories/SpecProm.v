(** What Prometheus should show: numbers, not float64. *)
From Coq Require Import NArith ZArith List Bool Floats.SpecFloat.
From Verif Require Import GoBase Metrics.
Import ListNotations.
Local Open Scope Z_scope.

(** ** The number a float64 stands for *)
(** m * 2^e with 53 significant bits *)
Definition canon (m : positive) (e : Z) : Prop := 2 ^ 52 <= Zpos m < 2 ^ 53 /\ -1074 <= e <= 971.
(** The float64 f is exactly num / den. *)
Definition worth (f : spec_float) (num den : Z) : Prop :=
  match f with
  | S754_zero _ => num = 0
  | S754_finite false m e => canon m e /\ Zpos m * 2 ^ (e + 1074) * den = num * 2 ^ 1074
  | _ => False
  end.

(** ** Histograms *)
(** How many of the numbers are at most num / den. *)
Definition at_most (num den : Z) (l : list N) : N :=
  N.of_nat (length (filter (fun n => Z.of_N n * den <=? num) l)).
(** A bucket that is shown, with the bound num / den, when l has been observed. *)
Definition shown (l : list N) (bucket : spec_float * N) (bound : Z * Z) : Prop :=
  worth (fst bucket) (fst bound) (snd bound) /\ snd bucket = at_most (fst bound) (snd bound) l.
(** The sum of the numbers. *)
Definition total (l : list N) : N := fold_right N.add 0%N l.

(** ** The bounds that are declared (metrics/metrics.go:50-57, 67-74, 110-122, 133-145) *)
Definition whole (l : list Z) : list (Z * Z) := map (fun n => (n, 1)) l.
(** Bits in a report, up to 10 Gb; above that the last bucket, +Inf. *)
Definition rate_bounds : list (Z * Z) := whole
  [0; 1; 10; 100; 1000; 1580; 2510; 3980; 6310; 10000; 15800; 25100; 39800; 63100;
   100000; 158000; 251000; 398000; 631000; 1000000; 1580000; 2510000; 3980000; 6310000;
   10000000; 15800000; 25100000; 39800000; 63100000; 100000000; 158000000; 251000000; 398000000; 631000000;
   1000000000; 1260000000; 1580000000; 2000000000; 2510000000; 3160000000; 3980000000; 5010000000; 6310000000; 7940000000;
   10000000000].
(** Numbers of connections. *)
Definition count_bounds : list (Z * Z) :=
  whole [1; 2; 3; 4; 5; 6; 8; 10] ++ [(25, 2)] ++
  whole [16; 20; 25; 32; 40; 50; 63; 79; 100; 125; 160; 200; 250; 320; 400; 500; 630; 790;
         1000; 1250; 1600; 2000; 2500; 3200; 4000; 5000; 6300; 7900;
         10000; 12500; 16000; 20000; 25000; 32000; 40000; 50000; 63000; 79000; 10000000].

(** ** Label values *)
Definition ascii (s : bytes) : Prop := Forall (fun c => (bval c < 128)%N) s.

(** ** Numbers of connections, per address family *)
Definition sizes_of (af : bytes) (l : list metric) : list N :=
  flat_map (fun m => match m with ConnectionCount af' n => if bytes_eqb af af' then [N.of_nat n] else [] | _ => [] end) l.
