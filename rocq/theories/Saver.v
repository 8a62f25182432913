(** Model of saver/saver.go: the saver goroutine as a state transformer that
    records every externally visible action in a log.  The marshaller goroutines
    and the channels between them are in System.v.  Log output is left out. *)
From stdpp Require Import gmap.
From Coq Require Import Strings.String NArith ZArith.
From Verif Require Import GoBase GoTime Inetdiag Netlink Cache.
Local Open Scope list_scope.

(** netlink/netlink.go:6-12 type MessageBlock: a nil message is
    [None]. *)
Record block := mkblock {
  V4Time : Z; V6Time : Z; V4Messages : list (option nlmsg); V6Messages : list (option nlmsg) }.

(** What the saver does that can be seen from outside.
    - [ANow t]: time.Now() returned t;
    - [AOpen t k id]: eventServer.FlowCreated(t, uuid.FromCookie(k), id);
    - [AClose t k]: eventServer.FlowDeleted(t, uuid.FromCookie(k));
    - [AMkdir ok path], [ACreate w path], [ACreateFail path]: os.MkdirAll and
      zstd.NewWriter, w being the identity of the new writer;
    - [AHeader w md]: the JSON line of a record holding only the metadata md is
      written to w;
    - [ASend q msg w]: Task{msg, w} is sent to MarshalChans[q], [None] is the nil
      message that closes w;
    - [ANewFile], [ASnapshot], [ACacheSize n]: NewFileCount.Inc,
      SnapshotCount.Inc, CacheSizeHistogram.Observe(n);
    - [AObsSent n], [AObsRecv n]: Send/ReceiveRateHistogram.Observe(8 * n);
    - [AErrSent low], [AErrRecv low]: the ErrorCount increments, [low] for the
      label "total < reported";
    - [ACloseChan q], [ADone]: close(MarshalChans[q]), Done.Done(). (saver/saver.go:65-496) *)
Inductive action :=
| ANow (t : Z)
| AOpen (t : Z) (k : N) (id : sockid)
| AClose (t : Z) (k : N)
| AMkdir (ok : bool) (path : bytes)
| ACreate (w : nat) (path : bytes)
| ACreateFail (path : bytes)
| AHeader (w : nat) (md : metadata)
| ANewFile
| ASend (q : nat) (msg : option cell) (w : nat)
| ASnapshot
| ACacheSize (n : nat)
| AObsSent (n : N)
| AObsRecv (n : N)
| AErrSent (low : bool)
| AErrRecv (low : bool)
| ACloseChan (q : nat)
| ADone.

(** saver/saver.go:95-104 type Connection.  Inode, UID and Slice are never read
    and left out. *)
Record conn := mkconn {
  cn_id : sockid; cn_start : Z; cn_seq : nat; cn_exp : Z; cn_writer : option nat }.

(** The environment: results of the n-th call of time.Now, os.MkdirAll,
    zstd.NewWriter, the order in which the n-th range over a map visits its keys,
    and the prefix of uuid.FromCookie (host name and boot time). (saver/saver.go:120-142, 218-244, 331-430) *)
Record world := mkworld {
  clock : nat -> Z; mkdir_ok : nat -> bool; create_ok : nat -> bool;
  order : nat -> list N -> list N; uuid_prefix : bytes }.
(** The saver's configuration: the length of MarshalChans, and exclude. (saver/saver.go:200-244) *)
Record config := mkconfig { nmarsh : nat; excl : option exclude_config }.

(** saver/saver.go:158-163 type stats (the int64 counters do not wrap here) *)
Record counters := mkcnt { n_total : nat; n_new : nat; n_diff : nat; n_expired : nat }.
(** saver/saver.go:331-345: the local variables of MessageSaverLoop (pairs are
    TcpStats: sent, received).  [l_live] is (s4+s6, r4+r6): the two calls of
    handleType accumulate into one pair, uint64 addition being associative. *)
Record loopvars := mkloop { l_reported : N * N; l_closed : N * N; l_last : Z; l_live : N * N }.
(** How many answers of the environment were used, the next writer and the next
    record identity. (saver/saver.go:120-142 and 331-482) *)
Record position := mkpos {
  p_clock : nat; p_mkdir : nat; p_create : nat; p_range : nat; p_writer : nat; p_uid : nat }.

(** saver/saver.go:200-214 type Saver (Host, Pod and FileAgeLimit are never
    used; the number of MarshalChans is in [config]).  [s_dead]: the process has
    crashed (run-time panic); nothing happens afterwards. *)
Record saver := mksaver {
  s_cache : cache; s_conns : gmap N conn; s_closing : gmap N (N * N); s_ctotals : N * N;
  s_stats : counters; s_loop : loopvars; s_pos : position; s_log : list action; s_dead : bool }.

(** saver/saver.go:218-245 NewSaver, with the initial loop variables of
    saver/saver.go:334-335 *)
Definition new_saver : saver :=
  mksaver new_cache ∅ ∅ (0, 0)%N (mkcnt 0 0 0 0) (mkloop (0, 0)%N (0, 0)%N zero_unix (0, 0)%N)
          (mkpos 0 0 0 0 0 0) [] false.

(** Assignments to the fields of saver/saver.go:200-214 type Saver and to the local
    variables of MessageSaverLoop: [with_cache] to [with_pos]. *)
Definition with_cache c s := mksaver c (s_conns s) (s_closing s) (s_ctotals s) (s_stats s) (s_loop s) (s_pos s) (s_log s) (s_dead s).
(** Connections, saver/saver.go:206 *)
Definition with_conns m s := mksaver (s_cache s) m (s_closing s) (s_ctotals s) (s_stats s) (s_loop s) (s_pos s) (s_log s) (s_dead s).
(** ClosingStats and ClosingTotals, saver/saver.go:207-208 *)
Definition with_closing m t s := mksaver (s_cache s) (s_conns s) m t (s_stats s) (s_loop s) (s_pos s) (s_log s) (s_dead s).
(** stats, saver/saver.go:211 *)
Definition with_stats c s := mksaver (s_cache s) (s_conns s) (s_closing s) (s_ctotals s) c (s_loop s) (s_pos s) (s_log s) (s_dead s).
(** The variables of saver/saver.go:334-345 *)
Definition with_loop l s := mksaver (s_cache s) (s_conns s) (s_closing s) (s_ctotals s) (s_stats s) l (s_pos s) (s_log s) (s_dead s).
(** The environment has been asked (no code of its own). (saver/saver.go:120-142) *)
Definition with_pos p s := mksaver (s_cache s) (s_conns s) (s_closing s) (s_ctotals s) (s_stats s) (s_loop s) p (s_log s) (s_dead s).
(** Something is seen (no code of its own). (saver/saver.go:120-496) *)
Definition emit a s := mksaver (s_cache s) (s_conns s) (s_closing s) (s_ctotals s) (s_stats s) (s_loop s) (s_pos s) (s_log s ++ [a]) (s_dead s).
(** A run-time panic. (saver/saver.go:120-496) *)
Definition crash s := mksaver (s_cache s) (s_conns s) (s_closing s) (s_ctotals s) (s_stats s) (s_loop s) (s_pos s) (s_log s) true.

(** saver/saver.go:165-179 IncTotalCount, IncNewCount, IncDiffCount, IncExpiredCount *)
Definition inc_total s := let c := s_stats s in with_stats (mkcnt (S (n_total c)) (n_new c) (n_diff c) (n_expired c)) s.
(** saver/saver.go:169-171 IncNewCount *)
Definition inc_new s := let c := s_stats s in with_stats (mkcnt (n_total c) (S (n_new c)) (n_diff c) (n_expired c)) s.
(** saver/saver.go:173-175 IncDiffCount *)
Definition inc_diff s := let c := s_stats s in with_stats (mkcnt (n_total c) (n_new c) (S (n_diff c)) (n_expired c)) s.
(** saver/saver.go:177-179 IncExpiredCount *)
Definition inc_expired s := let c := s_stats s in with_stats (mkcnt (n_total c) (n_new c) (n_diff c) (S (n_expired c))) s.

(** pair-wise uint64 addition and subtraction of TcpStats (saver/saver.go:331-430 and 158-194) *)
Definition add2 (a b : N * N) : N * N := (u64_add a.1 b.1, u64_add a.2 b.2).
(** pair-wise uint64 subtraction of TcpStats (saver/saver.go:331-430 and 158-194) *)
Definition sub2 (a b : N * N) : N * N := (u64_sub a.1 b.1, u64_sub a.2 b.2).

(** svr.Connections[cookie] = conn, saver/saver.go:272 *)
Definition set_conn (k : N) (c : conn) (s : saver) : saver := with_conns (<[k := c]> (s_conns s)) s.
(** conn.Writer = v, saver/saver.go:133 and 278 *)
Definition set_writer (v : option nat) (c : conn) : conn := mkconn (cn_id c) (cn_start c) (cn_seq c) (cn_exp c) v.

(** github.com/m-lab/uuid FromCookie (external): prefix, '_', cookie in %016X
    (saver/saver.go:132, 147, 271 and 291) *)
Definition from_cookie (prefix : bytes) (k : N) : bytes := prefix ++ [x5f] ++ hex16 k.

(** saver/saver.go:133 fmt.Sprintf("%s/%s.%05d.jsonl.zst", datePath, id, conn.Sequence) *)
Definition file_path (datePath id : bytes) (seq : nat) : bytes :=
  datePath ++ [x2f] ++ id ++ [x2e] ++ dec_pad 5 (N.of_nat seq) ++ str ".jsonl.zst"%string.

Section Saver.
Variables (w : world) (cf : config).

(** time.Now() (saver/saver.go:120-126 and 290-298) *)
Definition now (s : saver) : Z * saver :=
  let p := s_pos s in
  let t := clock w (p_clock p) in
  (t, emit (ANow t) (with_pos (mkpos (S (p_clock p)) (p_mkdir p) (p_create p) (p_range p) (p_writer p) (p_uid p)) s)).

(** saver/saver.go:120-142 Rotate, with 144-156 writeHeader.  The error case
    returns [None]; the connection's Writer is nil before and after. *)
Definition rotate (c : conn) (s : saver) : saver * option conn :=
  let id := from_cookie (uuid_prefix w) (cookie_uint64 (cn_id c)) in
  let '(datePath, s) :=
    if (0 <? cn_seq c)%nat then let '(t, s) := now s in (format_date t, s)
    else (format_date (cn_start c), s) in
  let p := s_pos s in
  let ok := mkdir_ok w (p_mkdir p) in
  let s := emit (AMkdir ok datePath)
             (with_pos (mkpos (p_clock p) (S (p_mkdir p)) (p_create p) (p_range p) (p_writer p) (p_uid p)) s) in
  if negb ok then (s, None) else
  let p := s_pos s in
  let path := file_path datePath id (cn_seq c) in
  if negb (create_ok w (p_create p)) then
    (emit (ACreateFail path)
       (with_pos (mkpos (p_clock p) (p_mkdir p) (S (p_create p)) (p_range p) (p_writer p) (p_uid p)) s), None)
  else
    let wr := p_writer p in
    let s := emit (ACreate wr path)
               (with_pos (mkpos (p_clock p) (p_mkdir p) (S (p_create p)) (p_range p) (S wr) (p_uid p)) s) in
    let s := emit (AHeader wr (mkmeta id (Z.of_nat (cn_seq c)) (cn_start c))) s in
    let s := emit ANewFile s in
    (s, Some (mkconn (cn_id c) (cn_start c) (S (cn_seq c)) (cn_exp c + 10 * minute)%Z (Some wr))).

(** saver/saver.go:248-288 queue; the returned error is only logged by the
    callers and left out. *)
Definition queue (msg : cell) (s : saver) : saver :=
  match parse_idm (ar_raw (c_ar msg)) with
  | Ret m =>
    let k := cookie (idiag_id m) in
    if N.eqb k 0 then s
    else if (nmarsh cf <? 1)%nat then s
    else
      let q := N.to_nat (k mod N.of_nat (nmarsh cf)) in
      let '(c, s) :=
        match s_conns s !! k with
        | Some c => (c, s)
        | None =>
          (* saver/saver.go:106-110 newConnection *)
          let '(t, s) := now s in
          let c := mkconn (get_sockid (idiag_id m)) (ar_time (c_ar msg)) 0 t None in
          (c, set_conn k c (emit (AOpen (ar_time (c_ar msg)) k (get_sockid (idiag_id m))) s))
        end in
      let '(t, s) := now s in
      let '(c, s) :=
        match cn_writer c with
        | Some wr => if (cn_exp c <? t)%Z
                     then let c := set_writer None c in (c, set_conn k c (emit (ASend q None wr) s))
                     else (c, s)
        | None => (c, s)
        end in
      match cn_writer c with
      | Some wr => emit (ASend q (Some msg) wr) s
      | None =>
        match rotate c s with
        | (s, Some c') =>
          let s := set_conn k c' s in
          match cn_writer c' with
          | Some wr => emit (ASend q (Some msg) wr) s
          | None => s
          end
        | (s, None) => s
        end
      end
  | _ => crash s (* the nil *InetDiagMsg is dereferenced *)
  end.

(** saver/saver.go:290-298 endConn *)
Definition end_conn (k : N) (s : saver) : saver :=
  let '(t, s) := now s in
  let s := emit (AClose t k) s in
  if Nat.eqb (nmarsh cf) 0 then crash s (* integer divide by zero *)
  else
    let q := N.to_nat (k mod N.of_nat (nmarsh cf)) in
    match s_conns s !! k with
    | Some c =>
      match cn_writer c with
      | Some wr => let s := emit (ASend q None wr) s in with_conns (delete k (s_conns s)) s
      | None => s
      end
    | None => s
    end.

(** saver/saver.go:432-482 swapAndQueue.  [view] reads a record held in the
    cache (it may have been anonymized in place meanwhile, System.v). *)
Definition swap_and_queue (view : cell -> archival) (pm : cell) (s : saver) : saver :=
  let s := inc_total s in
  match update (s_cache s) pm with
  | (Ret old, c) =>
    let s := with_cache c s in
    match old with
    | None => queue pm (emit ASnapshot (inc_new s))
    | Some oldc =>
      let old := view oldc in
      match parse_idm (ar_raw (c_ar pm)) with
      | Ret m =>
        let s :=
          if negb (has_diag_info (c_ar pm)) && has_diag_info old
          then with_closing (<[cookie (idiag_id m) := get_stats old]> (s_closing s)) (add2 (s_ctotals s) (get_stats old)) s
          else s in
        match compare (c_ar pm) (Some old) with
        | Ret NoMajorChange => s
        | Ret _ => queue pm (emit ASnapshot (inc_diff s))
        | Fail _ => s
        | _ => crash s
        end
      | _ => s
      end
    end
  | (Fail _, _) => s
  | _ => crash s
  end.

(** saver/saver.go:305-325: one iteration of the loop of handleType, [t] being
    its argument. *)
Definition handle_msg (view : cell -> archival) (t : Z) (msg : option nlmsg) (s : saver) : saver :=
  if s_dead s then s else
  match msg with
  | None => s
  | Some msg =>
    match make_archival_record msg (excl cf) with
    | Ret (Some ar) =>
      let ar := mkar t (ar_raw ar) (ar_attrs ar) (ar_meta ar) in
      let p := s_pos s in
      let s := with_pos (mkpos (p_clock p) (p_mkdir p) (p_create p) (p_range p) (p_writer p) (S (p_uid p))) s in
      let l := s_loop s in
      let s := with_loop (mkloop (l_reported l) (l_closed l) (l_last l) (add2 (l_live l) (get_stats ar))) s in
      swap_and_queue view (mkcell (p_uid p) ar) s
    | Ret None | Fail _ => s
    | _ => crash s
    end
  end.
(** saver/saver.go:302-328 handleType *)
Definition handle_type (view : cell -> archival) (t : Z) (msgs : list (option nlmsg)) (s : saver) : saver :=
  foldl (fun s m => handle_msg view t m s) s msgs.

(** The n-th range over a map: its keys in the order chosen by the runtime. (saver/saver.go:353 and 488) *)
Definition range_keys {A} (m : gmap N A) (s : saver) : list N * saver :=
  let p := s_pos s in
  (order w (p_range p) ((map_to_list m).*1),
   with_pos (mkpos (p_clock p) (p_mkdir p) (p_create p) (S (p_range p)) (p_writer p) (p_uid p)) s).

(** saver/saver.go:349 EndCycle, called after both handleType calls; returns the
    residual entries in the order the loop at 353 visits them. *)
Definition end_round (s : saver) : list (N * cell) * saver :=
  if s_dead s then ([], s) else
  let s := emit (ACacheSize (size (cur (s_cache s)))) s in
  let '(residual, c) := end_cycle (s_cache s) in
  let '(keys, s) := range_keys residual (with_cache c s) in
  (omap (fun k => match residual !! k with Some m => Some (k, m) | None => None end) keys, s).

(** saver/saver.go:353-385: one iteration of the loop over the residual *)
Definition close_one (view : cell -> archival) (km : N * cell) (s : saver) : saver :=
  if s_dead s then s else
  let (k, m) := km in
  let ar := view m in
  let '(stats, s) :=
    if negb (has_diag_info ar)
    then match s_closing s !! k with
         | Some st => (st, with_closing (delete k (s_closing s)) (sub2 (s_ctotals s) st) s)
         | None => ((0, 0)%N, s)
         end
    else (get_stats ar, s) in
  let l := s_loop s in
  let s := with_loop (mkloop (l_reported l) (add2 (l_closed l) stats) (l_last l) (l_live l)) s in
  let s := end_conn k s in
  if s_dead s then s else inc_expired s.

(** 10*maxSwitchSpeed/8, saver/saver.go:35, 400 *)
Definition max_step : N := 12500000000.
(** saver/saver.go:400-411 (and 413-424 for received): the new value of reported,
    and the action *)
Definition report_one (total reported : N) (obs : N -> action) (err : bool -> action) (s : saver) : N * saver :=
  if N.ltb (u64_add max_step reported) total || N.ltb total reported
  then (reported, emit (err (N.ltb total reported)) s)
  else (total, emit (obs (u64_sub total reported)) s).
(** saver/saver.go:388-427: the report at the end of one iteration; the live
    sums, local to an iteration, are reset. *)
Definition report (t4 : Z) (s : saver) : saver :=
  if s_dead s then s else
  let l := s_loop s in
  let total := add2 (add2 (l_closed l) (s_ctotals s)) (l_live l) in
  if (l_last l <? unix t4)%Z then
    let '(rs, s) := report_one total.1 (l_reported l).1 AObsSent AErrSent s in
    let '(rr, s) := report_one total.2 (l_reported l).2 AObsRecv AErrRecv s in
    with_loop (mkloop (rs, rr) (l_closed l) (unix t4) (0, 0)%N) s
  else with_loop (mkloop (l_reported l) (l_closed l) (l_last l) (0, 0)%N) s.

(** saver/saver.go:338-428: one iteration of MessageSaverLoop *)
Definition do_block (view : cell -> archival) (b : block) (s : saver) : saver :=
  let s := handle_type view (V4Time b) (V4Messages b) s in
  let s := handle_type view (V6Time b) (V6Messages b) s in
  let '(residual, s) := end_round s in
  let s := foldl (fun s km => close_one view km s) s residual in
  report (V4Time b) s.

(** one iteration of the loop at saver/saver.go:488 *)
Definition end_conn_alive (k : N) (s : saver) : saver := if s_dead s then s else end_conn k s.
(** saver/saver.go:485-496 Close *)
Definition close_chans (s : saver) : saver :=
  if s_dead s then s
  else emit ADone (foldl (fun s q => emit (ACloseChan q) s) s (seq 0 (nmarsh cf))).
(** saver/saver.go:485-496 Close *)
Definition close (s : saver) : saver :=
  if s_dead s then s else
  let '(keys, s) := range_keys (s_conns s) s in
  close_chans (foldl (fun s k => end_conn_alive k s) s keys).

(** saver/saver.go:331-430 MessageSaverLoop on the blocks received until the
    channel is closed; [loop] is the part before svr.Close().  Here the records
    in the cache are read as they were built (no marshaller runs). *)
Definition loop (bs : list block) (s : saver) : saver := foldl (fun s b => do_block c_ar b s) s bs.
(** saver/saver.go:331-430 MessageSaverLoop from NewSaver to its end *)
Definition message_saver_loop (bs : list block) : saver := close (loop bs new_saver).

(** saver/saver.go:500-506 LogCacheStats: the five figures printed (total, local,
    same, diff, new) for errCount *)
Definition log_cache_stats (localCount errCount : Z) (s : saver) : Z * Z * Z * Z * Z :=
  let c := s_stats s in
  let total := Z.of_nat (n_total c) in
  let diff := Z.of_nat (n_diff c) in
  let new := Z.of_nat (n_new c) in
  (total + localCount, localCount, total - (errCount + new + diff + localCount), diff, new)%Z.
End Saver.
