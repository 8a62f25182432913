(** Model of the goroutines of the saver package: the saver goroutine of Saver.v,
    the marshallers, and the channels between them, as a transition system. *)
From stdpp Require Import gmap.
From Coq Require Import NArith ZArith.
From Verif Require Import GoBase GoTime Inetdiag Netlink Cache Saver.

(** The saver goroutine between two points where it reads shared memory.
    - [JBlock b]: the next block is received (saver/saver.go:338);
    - [JMsg t m]: one iteration of the loop of handleType;
    - [JRound t]: EndCycle, then the loop over the residual and the report;
    - [JClose km]: one iteration of the loop over the residual;
    - [JReport t]: saver/saver.go:388-427;
    - [JShutdown]: the input channel is closed, Close is entered;
    - [JEndConn k]: one iteration of the loop at saver/saver.go:488;
    - [JCloseChans]: the rest of Close. *)
Inductive job :=
| JBlock (b : block)
| JMsg (t : Z) (m : option nlmsg)
| JRound (t : Z)
| JClose (km : N * cell)
| JReport (t : Z)
| JShutdown
| JEndConn (k : N)
| JCloseChans.

(** saver/saver.go:51-55 type Task: [None] is the nil message. *)
Definition task : Type := option cell * nat.

(** saver/saver.go:65-85 runMarshaller: where a marshaller is.
    - [Idle]: at the head of its loop;
    - [Holding t]: a task has been received;
    - [Anonymized c wr]: Anonymize has returned nil;
    - [Rendered c b wr]: json.Marshal has returned b;
    - [Newline c wr]: b has been written;
    - [Finished]: wg.Done() has been called. *)
Inductive phase :=
| Idle | Holding (t : task) | Anonymized (c : cell) (wr : nat) | Rendered (c : cell) (b : bytes) (wr : nat)
| Newline (c : cell) (wr : nat) | Finished.
(** A marshaller and its channel, saver/saver.go:87-92 newMarshaller *)
Record marsh := mkmarsh { m_chan : list task; m_closed : bool; m_phase : phase }.

(** A writer: path, the bytes written while it was open, and whether it is open.
    Writes cannot fail here; what is written after Close is lost. (zstd/zstd.go:45-88) *)
Record file := mkfile { f_path : bytes; f_data : bytes; f_open : bool }.

(** The whole program.  [y_pc] actions of the saver's log have taken effect; the
    saver goroutine goes on computing only when all have.  [y_heap] holds the
    RawIDM of the records that have been anonymized in place.  [y_wg] is the
    counter of Saver.Done; [y_panic]: a goroutine has panicked. (saver/saver.go:65-92 and 331-496) *)
Record sys := mksys {
  y_saver : saver; y_jobs : list job; y_pc : nat; y_marsh : list marsh;
  y_heap : gmap nat bytes; y_files : gmap nat file; y_wg : nat; y_panic : bool }.

(** Assignments to the parts of the state, [with_saver] to [panicked] (no code of
    their own). (saver/saver.go:65-92 and 331-496) *)
Definition with_saver s js y := mksys s js (y_pc y) (y_marsh y) (y_heap y) (y_files y) (y_wg y) (y_panic y).
(** see [with_saver] (saver/saver.go:65-92 and 331-496) *)
Definition with_pc n y := mksys (y_saver y) (y_jobs y) n (y_marsh y) (y_heap y) (y_files y) (y_wg y) (y_panic y).
(** see [with_saver] (saver/saver.go:65-92 and 331-496) *)
Definition with_marsh q m y := mksys (y_saver y) (y_jobs y) (y_pc y) (<[q := m]> (y_marsh y)) (y_heap y) (y_files y) (y_wg y) (y_panic y).
(** see [with_saver] (saver/saver.go:65-92 and 331-496) *)
Definition with_heap h y := mksys (y_saver y) (y_jobs y) (y_pc y) (y_marsh y) h (y_files y) (y_wg y) (y_panic y).
(** see [with_saver] (saver/saver.go:65-92 and 331-496) *)
Definition with_files f y := mksys (y_saver y) (y_jobs y) (y_pc y) (y_marsh y) (y_heap y) f (y_wg y) (y_panic y).
(** see [with_saver] (saver/saver.go:65-92 and 331-496) *)
Definition with_wg n y := mksys (y_saver y) (y_jobs y) (y_pc y) (y_marsh y) (y_heap y) (y_files y) n (y_panic y).
(** A goroutine panics. (saver/saver.go:65-92 and 331-496) *)
Definition panicked y := mksys (y_saver y) (y_jobs y) (y_pc y) (y_marsh y) (y_heap y) (y_files y) (y_wg y) true.

(** A record as it is in memory now. (saver/saver.go:65-85) *)
Definition current (h : gmap nat bytes) (c : cell) : archival :=
  match h !! c_uid c with
  | Some raw => mkar (ar_time (c_ar c)) (Some raw) (ar_attrs (c_ar c)) (ar_meta (c_ar c))
  | None => c_ar c
  end.

(** What the saver goroutine may see when it reads a record of its cache while
    marshallers run.  Two kinds of bytes are not protected: the addresses, which
    a marshaller may be overwriting at that moment, and the bytes beyond the end
    of an attribute, which belong to another message of the same receive buffer.
    They may have any value; every other byte is as in [r].
    (saver/saver.go:331-482, inetdiag/structs.go:308-329) *)
Definition same_vis (a b : option gslice) : Prop :=
  match a, b with
  | Some x, Some y => vis x = vis y
  | None, None => True
  | _, _ => False
  end.
(** [r'] is what may be seen of [r]. (saver/saver.go:331-482) *)
Definition sees (r r' : archival) : Prop :=
  ar_time r' = ar_time r /\ ar_meta r' = ar_meta r /\ Forall2 same_vis (ar_attrs r) (ar_attrs r') /\
  match ar_raw r, ar_raw r' with
  | Some b, Some b' => length b' = length b /\ firstn 8 b' = firstn 8 b /\ skipn 40 b' = skipn 40 b
  | None, None => True
  | _, _ => False
  end.

Section System.
Variables (w : world) (cf : config).
(** The capacity of the channels (100 in saver/saver.go:88), the anonymizer, and
    the JSON encodings of a record and of a record holding only metadata (empty
    if json.Marshal fails). *)
Variables (cap : nat) (anon : bytes -> bytes) (line : archival -> bytes) (hline : metadata -> bytes).

(** One piece of work of the saver goroutine, reading records of the cache
    through [view]; the second result is the work that comes next. (saver/saver.go:331-496) *)
Definition run_job (view : cell -> archival) (j : job) (s : saver) : saver * list job :=
  match j with
  | JBlock b => (s, map (JMsg (V4Time b)) (V4Messages b) ++ map (JMsg (V6Time b)) (V6Messages b) ++ [JRound (V4Time b)])
  | JMsg t m => (handle_msg w cf view t m s, [])
  | JRound t => let '(residual, s') := end_round w s in (s', map JClose residual ++ [JReport t])
  | JClose km => (close_one w cf view km s, [])
  | JReport t => (report t s, [])
  | JShutdown => let '(keys, s') := range_keys w (s_conns s) s in (s', map JEndConn keys ++ [JCloseChans])
  | JEndConn k => (end_conn_alive w cf k s, [])
  | JCloseChans => (close_chans cf s, [])
  end.

(** Writer.Write (saver/saver.go:80-81) *)
Definition write (wr : nat) (b : bytes) (fs : gmap nat file) : gmap nat file :=
  match fs !! wr with
  | Some f => if f_open f then <[wr := mkfile (f_path f) (f_data f ++ b) true]> fs else fs
  | None => fs
  end.
(** Writer.Close (saver/saver.go:68) *)
Definition close_file (wr : nat) (fs : gmap nat file) : gmap nat file :=
  match fs !! wr with
  | Some f => <[wr := mkfile (f_path f) (f_data f) false]> fs
  | None => fs
  end.
(** []byte("\n"), saver/saver.go:81 and 155 *)
Definition nl : bytes := [x0a].

(** An action of the saver goroutine takes effect; [None]: it blocks.  The two
    Write calls of writeHeader (saver/saver.go:154-155) are one action: no other
    goroutine knows the writer yet.  The event server is taken never to block. *)
Definition exec (a : action) (y : sys) : option sys :=
  match a with
  | ASend q msg wr =>
      match y_marsh y !! q with
      | Some m => if m_closed m then Some (panicked y)
                  else if length (m_chan m) <? cap
                       then Some (with_marsh q (mkmarsh (m_chan m ++ [(msg, wr)]) (m_closed m) (m_phase m)) y)
                       else None
      | None => Some (panicked y)
      end
  | ACreate wr path => Some (with_files (<[wr := mkfile path [] true]> (y_files y)) y)
  | AHeader wr md => Some (with_files (write wr nl (write wr (hline md) (y_files y))) y)
  | ACloseChan q =>
      match y_marsh y !! q with
      | Some m => if m_closed m then Some (panicked y)
                  else Some (with_marsh q (mkmarsh (m_chan m) true (m_phase m)) y)
      | None => Some (panicked y)
      end
  | ADone => match y_wg y with O => Some (panicked y) | S n => Some (with_wg n y) end
  | _ => Some y
  end.

(** The process is running. (saver/saver.go:65-92 and 331-496) *)
Definition alive (y : sys) : Prop :=
  y_panic y = false /\ ~ (s_dead (y_saver y) = true /\ y_pc y = length (s_log (y_saver y))).

(** A marshaller goes to another point of saver/saver.go:65-85. *)
Definition goes_to (q : nat) (m : marsh) (p : phase) (y : sys) : sys := with_marsh q (mkmarsh (m_chan m) (m_closed m) p) y.

(** One step of some goroutine.  The marshaller steps are those of
    saver/saver.go:65-85 runMarshaller. *)
Inductive step : sys -> sys -> Prop :=
| st_job y j js view : alive y -> y_pc y = length (s_log (y_saver y)) -> y_jobs y = j :: js ->
    (forall c, sees (current (y_heap y) c) (view c)) ->
    step y (with_saver (run_job view j (y_saver y)).1 ((run_job view j (y_saver y)).2 ++ js) y)
| st_act y a y' : alive y -> s_log (y_saver y) !! y_pc y = Some a -> exec a y = Some y' ->
    step y (with_pc (S (y_pc y)) y')
| st_take y q m t ts : alive y -> y_marsh y !! q = Some m -> m_phase m = Idle -> m_chan m = t :: ts ->
    step y (with_marsh q (mkmarsh ts (m_closed m) (Holding t)) y)
| st_finish y q m : alive y -> y_marsh y !! q = Some m -> m_phase m = Idle -> m_chan m = [] -> m_closed m = true ->
    step y (match y_wg y with O => panicked y | S n => with_wg n (goes_to q m Finished y) end)
| st_close y q m wr : alive y -> y_marsh y !! q = Some m -> m_phase m = Holding (None, wr) ->
    step y (goes_to q m Idle (with_files (close_file wr (y_files y)) y))
| st_anon y q m c wr raw : alive y -> y_marsh y !! q = Some m -> m_phase m = Holding (Some c, wr) ->
    anonymize anon (match ar_raw (current (y_heap y) c) with Some b => b | None => [] end) = Ret raw ->
    step y (goes_to q m (Anonymized c wr) (with_heap (<[c_uid c := raw]> (y_heap y)) y))
| st_skip y q m c wr e : alive y -> y_marsh y !! q = Some m -> m_phase m = Holding (Some c, wr) ->
    anonymize anon (match ar_raw (current (y_heap y) c) with Some b => b | None => [] end) = Fail e ->
    step y (goes_to q m Idle y)
| st_render y q m c wr : alive y -> y_marsh y !! q = Some m -> m_phase m = Anonymized c wr ->
    step y (goes_to q m (Rendered c (line (current (y_heap y) c)) wr) y)
| st_write y q m c b wr : alive y -> y_marsh y !! q = Some m -> m_phase m = Rendered c b wr ->
    step y (goes_to q m (Newline c wr) (with_files (write wr b (y_files y)) y))
| st_newline y q m c wr : alive y -> y_marsh y !! q = Some m -> m_phase m = Newline c wr ->
    step y (goes_to q m Idle (with_files (write wr nl (y_files y)) y)).

(** saver/saver.go:218-245 NewSaver started on a channel that will deliver bs and
    then be closed (main.go:141-151).  When a block arrives is up to the
    scheduler. *)
Definition initial (bs : list block) : sys :=
  mksys new_saver (map JBlock bs ++ [JShutdown]) 0 (replicate (nmarsh cf) (mkmarsh [] false Idle)) ∅ ∅ (S (nmarsh cf)) false.
(** Every state that some schedule leads to. (saver/saver.go:65-92 and 331-496) *)
Definition reachable (bs : list block) (y : sys) : Prop := rtc step (initial bs) y.
End System.
