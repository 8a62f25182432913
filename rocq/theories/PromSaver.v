(** Model of the histograms and labels the saver and the collector use, driven by
    what they log (Saver.v, Metrics.v). *)
From Coq Require Import Strings.String NArith.
From stdpp Require Import gmap.
From Verif Require Import GoBase Metrics Prom Saver.
Local Open Scope list_scope.

(** saver/saver.go:409: SendRateHistogram.Observe *)
Definition sent_histogram (h : histogram) (l : list action) : histogram :=
  fold_left (fun h a => match a with AObsSent n => observe h (rate_value n) | _ => h end) l h.
(** saver/saver.go:422: ReceiveRateHistogram.Observe *)
Definition recv_histogram (h : histogram) (l : list action) : histogram :=
  fold_left (fun h a => match a with AObsRecv n => observe h (rate_value n) | _ => h end) l h.
(** cache/cache.go:53: CacheSizeHistogram.Observe *)
Definition cache_histogram (h : histogram) (l : list action) : histogram :=
  fold_left (fun h a => match a with ACacheSize n => observe h (float_of (N.of_nat n)) | _ => h end) l h.
(** collector/socket-monitor_linux.go:87: ConnectionCountHistogram.With(af).Observe *)
Definition connection_histogram (af : bytes) (h : histogram) (l : list metric) : histogram :=
  fold_left (fun h m => match m with
                        | ConnectionCount af' n => if bytes_eqb af af' then observe h (float_of (N.of_nat n)) else h
                        | _ => h end) l h.
(** The metrics of saver/saver.go:138, 404, 406, 409, 417, 419, 422, 442 and 474 and
    cache/cache.go:53, and the labels given to them *)
Definition saver_use (a : action) : option (bytes * naming) :=
  match a with
  | ANewFile => Some (str "tcpinfo_new_file_total", Plain)
  | ASnapshot => Some (str "tcpinfo_snapshot_total", Plain)
  | ACacheSize _ => Some (str "tcpinfo_cache_count_histogram", Plain)
  | AObsSent _ => Some (str "tcpinfo_send_rate_histogram", Plain)
  | AObsRecv _ => Some (str "tcpinfo_receive_rate_histogram", Plain)
  | AErrSent low => Some (str "tcpinfo_error_total", Of [error_label true low])
  | AErrRecv low => Some (str "tcpinfo_error_total", Of [error_label false low])
  | _ => None
  end.
