(** Model of the metrics as Prometheus sees them: their declarations
    (metrics/metrics.go), what registering them checks, and the histograms.  The
    library (github.com/prometheus/client_golang v1.11.1) is modelled from its
    documented behaviour.  float64 is IEEE 754 binary64 as specified by Coq's
    standard library (Floats.SpecFloat, over Z), which is Go's float64. *)
From Coq Require Import Strings.String List NArith ZArith Bool Floats.SpecFloat.
From Verif Require Import GoBase Metrics.
Import ListNotations.
Local Open Scope list_scope.

(** float64 (metrics/metrics.go:26-30) *)
Definition float : Set := spec_float.
(** The sum of float64, in the Observe of saver/saver.go:409 and 422 *)
Definition fadd : float -> float -> float := SFadd 53 1024.
(** The product of float64 (saver/saver.go:409 and 422) *)
Definition fmul : float -> float -> float := SFmul 53 1024.
(** The quotient of float64, for the literals of metrics/metrics.go:26-30, 38 and 51-57 *)
Definition fdiv : float -> float -> float := SFdiv 53 1024.
(** <= of float64, in the Observe of saver/saver.go:409 and 422 *)
Definition fle : float -> float -> bool := SFleb.
(** float64(n) for n uint64 or a non-negative int, as at saver/saver.go:409 and 422,
    cache/cache.go:53 and collector/socket-monitor_linux.go:87 *)
Definition float_of (n : N) : float := binary_normalize 53 1024 (Z.of_N n) 0 false.
(** The value of the literal p / 10^k: the nearest float64 (metrics/metrics.go:26-30, 38, 51-57) *)
Definition lit (p k : N) : float := fdiv (float_of p) (float_of (10 ^ k)).
(** math.Inf(+1) (metrics/metrics.go:121 and 144) *)
Definition inf : float := S754_infinity false.

(** ** Buckets *)
(** metrics/metrics.go:26-30: SyscallTimeHistogram *)
Definition syscall_buckets : list float :=
  [lit 1 3; lit 125 5; lit 16 4; lit 2 3; lit 25 4; lit 32 4; lit 4 3; lit 5 3; lit 63 4; lit 79 4;
   lit 1 2; lit 125 4; lit 16 3; lit 2 2; lit 25 3; lit 32 3; lit 4 2; lit 5 2; lit 63 3; lit 79 3;
   lit 1 1; lit 125 3; lit 16 2; lit 2 1].
(** prometheus.LinearBuckets(start, width, count): the bounds are added up (metrics/metrics.go:38) *)
Fixpoint linear_buckets (start width : float) (count : nat) : list float :=
  match count with
  | O => []
  | S k => start :: linear_buckets (fadd start width) width k
  end.
(** metrics/metrics.go:38: PollingHistogram *)
Definition polling_buckets : list float := linear_buckets (float_of 0) (lit 1 3) 30.
(** metrics/metrics.go:50-57 and 67-74: ConnectionCountHistogram and CacheSizeHistogram *)
Definition count_buckets : list float :=
  map float_of [1; 2; 3; 4; 5; 6; 8; 10]%N ++ [lit 125 1] ++
  map float_of [16; 20; 25; 32; 40; 50; 63; 79;
   100; 125; 160; 200; 250; 320; 400; 500; 630; 790;
   1000; 1250; 1600; 2000; 2500; 3200; 4000; 5000; 6300; 7900;
   10000; 12500; 16000; 20000; 25000; 32000; 40000; 50000; 63000; 79000;
   10000000]%N.
(** metrics/metrics.go:110-122 and 133-145: SendRateHistogram and ReceiveRateHistogram *)
Definition rate_buckets : list float :=
  map float_of [0; 1; 10; 100;
   1000; 1580; 2510; 3980; 6310;
   10000; 15800; 25100; 39800; 63100;
   100000; 158000; 251000; 398000; 631000;
   1000000; 1580000; 2510000; 3980000; 6310000;
   10000000; 15800000; 25100000; 39800000; 63100000;
   100000000; 158000000; 251000000; 398000000; 631000000;
   1000000000; 1260000000; 1580000000; 2000000000; 2510000000; 3160000000; 3980000000; 5010000000; 6310000000; 7940000000;
   10000000000]%N ++ [inf].

(** ** Histograms (used at collector/collector_linux.go:81, collector/socket-monitor_linux.go:86-87,
    cache/cache.go:53, saver/saver.go:409 and 422) *)
(** prometheus.histogram: upperBounds, the counts of the buckets, the number and the
    sum of the observations (metrics/metrics.go:21-40).  Simplifications: the counters
    are uint64 in Go and do not wrap here; observations are atomic. *)
Record histogram := mkhist { h_bounds : list float; h_counts : list N; h_number : N; h_sum : float }.

(** The check of prometheus.newHistogram, and the last bound +Inf left out
    (metrics/metrics.go:21-40).  None is a panic. *)
Fixpoint check_bounds (bs : list float) : option (list float) :=
  match bs with
  | [] => Some []
  | [b] => Some (match b with S754_infinity false => [] | _ => [b] end)
  | b :: (b' :: _) as r =>
      if fle b' b then None else match check_bounds r with Some l => Some (b :: l) | None => None end
  end.
(** prometheus.newHistogram (metrics/metrics.go:21-40) *)
Definition new_histogram (bs : list float) : option histogram :=
  match check_bounds bs with
  | Some l => Some (mkhist l (map (fun _ => 0%N) l) 0 (float_of 0))
  | None => None
  end.
(** sort.Search(n, f): the loop while i < j; the fuel bounds it (each turn shortens the
    interval) (saver/saver.go:409 and 422) *)
Fixpoint search (fuel i j : nat) (f : nat -> bool) : nat :=
  match fuel with
  | O => i
  | S fuel' =>
      if (i <? j)%nat then
        let h := Nat.div2 (i + j) in
        if f h then search fuel' i h f else search fuel' (h + 1) j f
      else i
  end.
(** counts.buckets[i]++, if there is such a bucket (saver/saver.go:409 and 422) *)
Fixpoint increment (i : nat) (cs : list N) : list N :=
  match cs, i with
  | c :: r, O => (c + 1)%N :: r
  | c :: r, S i' => c :: increment i' r
  | [], _ => []
  end.
(** The bucket is that of sort.SearchFloat64s, the first whose bound is not below v; its
    count is incremented, if there is one (saver/saver.go:409 and 422). *)
Definition bump (bs : list float) (cs : list N) (v : float) : list N :=
  increment (search (length bs) 0 (length bs) (fun k => fle v (nth k bs S754_nan))) cs.
(** prometheus.histogram.Observe (saver/saver.go:409 and 422, cache/cache.go:53,
    collector/socket-monitor_linux.go:87) *)
Definition observe (h : histogram) (v : float) : histogram :=
  mkhist (h_bounds h) (bump (h_bounds h) (h_counts h) v) (h_number h + 1) (fadd (h_sum h) v).
(** A scrape of a histogram (prometheus.histogram.Write; main.go:97 serves it): the
    bounds with cumulative counts, the number and the sum *)
Fixpoint cumulate (before : N) (bs : list float) (cs : list N) : list (float * N) :=
  match bs, cs with
  | b :: bs', c :: cs' => (b, (before + c)%N) :: cumulate (before + c) bs' cs'
  | _, _ => []
  end.
(** see [cumulate] (main.go:97) *)
Definition scrape (h : histogram) : list (float * N) * N * float :=
  (cumulate 0 (h_bounds h) (h_counts h), h_number h, h_sum h).

(** What is observed for n bytes: 8 * float64(n) (saver/saver.go:409 and 422) *)
Definition rate_value (n : N) : float := fmul (float_of 8) (float_of n).

(** ** Declarations *)
(** A metric: its name, the names of its labels, and the buckets of a histogram
    (metrics/metrics.go:18-178).  The help texts are left out. *)
Record declaration := mkdecl { d_name : bytes; d_labels : list bytes; d_buckets : option (list float) }.

(** metrics/metrics.go:18-178, in the order of the file *)
Definition declarations : list declaration :=
  [mkdecl (str "tcpinfo_syscall_time_histogram") [str "af"] (Some syscall_buckets);
   mkdecl (str "tcpinfo_polling_interval_histogram") [] (Some polling_buckets);
   mkdecl (str "tcpinfo_connection_count_histogram") [str "af"] (Some count_buckets);
   mkdecl (str "tcpinfo_cache_count_histogram") [] (Some count_buckets);
   mkdecl (str "tcpinfo_error_total") [str "type"] None;
   mkdecl (str "tcpinfo_new_file_total") [] None;
   mkdecl (str "tcpinfo_send_rate_histogram") [] (Some rate_buckets);
   mkdecl (str "tcpinfo_receive_rate_histogram") [] (Some rate_buckets);
   mkdecl (str "tcpinfo_snapshot_total") [] None;
   mkdecl (str "large_netlink_total") [str "type"] None;
   mkdecl (str "netlink_skipped_total") [str "type"] None;
   mkdecl (str "tcpinfo_flow_events_total") [str "event"] None].

(** A letter or an underscore (model.IsValidMetricName and LabelName.IsValid; for metrics/metrics.go:18-178) *)
Definition letter (c : byte) : bool :=
  let x := bval c in ((65 <=? x) && (x <=? 90) || (97 <=? x) && (x <=? 122) || (x =? 95))%N.
(** A decimal digit (for metrics/metrics.go:18-178) *)
Definition digit_byte (c : byte) : bool := let x := bval c in ((48 <=? x) && (x <=? 57))%N.
(** model.IsValidMetricName: also colons (for metrics/metrics.go:18-178) *)
Definition metric_name (s : bytes) : bool :=
  match s with
  | [] => false
  | c :: r => (letter c || Byte.eqb c x3a) && forallb (fun c => letter c || Byte.eqb c x3a || digit_byte c) r
  end.
(** prometheus.checkLabelName: a label name that does not begin with "__" (for metrics/metrics.go:18-178) *)
Definition label_name (s : bytes) : bool :=
  match s with
  | [] => false
  | c :: r => letter c && forallb (fun c => letter c || digit_byte c) r
              && negb (match s with a :: b :: _ => Byte.eqb a x5f && Byte.eqb b x5f | _ => false end)
  end.
(** No element twice (for metrics/metrics.go:18-178) *)
Fixpoint distinct (l : list bytes) : bool :=
  match l with
  | [] => true
  | x :: r => negb (existsb (bytes_eqb x) r) && distinct r
  end.
(** promauto.New...: prometheus.NewDesc, newHistogram (for a vector when its first
    element is used) and MustRegister panic unless this holds (metrics/metrics.go:18-178).
    "le" is not allowed as the label of a histogram. *)
Definition acceptable (d : declaration) : bool :=
  metric_name (d_name d) && forallb label_name (d_labels d) && distinct (d_labels d) &&
  match d_buckets d with
  | Some bs => negb (existsb (bytes_eqb (str "le")) (d_labels d)) && match check_bounds bs with Some _ => true | None => false end
  | None => true
  end.
(** The initialization of package metrics does not panic (metrics/metrics.go:18-178):
    all the declarations are acceptable and no name is taken *)
Definition registers (ds : list declaration) : bool := forallb acceptable ds && distinct (map d_name ds).

(** How a metric is named when it is updated: the variable and the labels given
    (collector/socket-monitor_linux.go:43, 48, 64, 86 and 87 with label names,
    collector/collector_linux.go:81 without; snapshot/snapshot.go:69-89 and 121,
    eventsocket/server.go:176 with label values only) *)
Inductive naming := By (labels : list (bytes * bytes)) | Of (values : list bytes) | Plain.
(** see [naming] (collector/socket-monitor_linux.go:43-87, snapshot/snapshot.go:69-121, eventsocket/server.go:176) *)
Definition use (m : metric) : bytes * naming :=
  match m with
  | SyscallTime af => (str "tcpinfo_syscall_time_histogram", By [(str "af", af)])
  | Polling => (str "tcpinfo_polling_interval_histogram", Plain)
  | ConnectionCount af _ => (str "tcpinfo_connection_count_histogram", By [(str "af", af)])
  | ErrorCount type => (str "tcpinfo_error_total", By [(str "type", type)])
  | LargeNetlinkMsg type => (str "large_netlink_total", Of [type])
  | NotDecoded type => (str "netlink_skipped_total", Of [type])
  | FlowEvents event => (str "tcpinfo_flow_events_total", Of [event])
  end.
(** The labels of saver/saver.go:404, 406, 417 and 419, [low] for the first of each pair *)
Definition error_label (sent low : bool) : bytes :=
  match sent, low with
  | true, true => str "totalSent < reportedSent"
  | true, false => str "totalSent-reportedSent exceeds network capacity"
  | false, true => str "totalReceived < reportedReceived"
  | false, false => str "totalReceived-reportedReceived exceeds network capacity"
  end.
(** CounterVec.With, WithLabelValues, HistogramVec.With or a metric without labels:
    without a panic if the names, or the number of values, are those declared and the
    values are UTF-8 (collector/socket-monitor_linux.go:43-87, snapshot/snapshot.go:69-121,
    eventsocket/server.go:176) *)
Definition accepts (valid : bytes -> bool) (d : declaration) (n : naming) : bool :=
  match n with
  | By l => (length l =? length (d_labels d))%nat && forallb (fun x => existsb (bytes_eqb x) (map fst l)) (d_labels d)
            && forallb (fun x => valid (snd x)) l
  | Of l => (length l =? length (d_labels d))%nat && forallb valid l
  | Plain => match d_labels d with [] => true | _ => false end
  end.
