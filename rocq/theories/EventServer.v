(** Model of eventsocket/server.go: the goroutines of the event server as a
    state machine.  Log output and metrics are left out, as is the WaitGroup
    servingWG (nothing outside the tests waits for it).  EventLock.v has the mutex
    and servingWG step by step. *)
From stdpp Require Import gmap.
From Coq Require Import NArith ZArith.
From Verif Require Import GoBase Inetdiag EventName.

(** eventsocket/server.go:34-39 type FlowEvent; times are in nanoseconds *)
Record flow_event := mkfe { fe_event : Z; fe_time : Z; fe_uuid : bytes; fe_id : option sockid }.

(** The events FlowCreated and FlowDeleted send: eventsocket/server.go:169-175
    and 180-185 *)
Definition flow_created (t : Z) (uuid : bytes) (id : sockid) : flow_event := mkfe Open t uuid (Some id).
(** eventsocket/server.go:180-185 FlowDeleted *)
Definition flow_deleted (t : Z) (uuid : bytes) : flow_event := mkfe Close t uuid None.

(** What can be seen of the server: an event was sent to eventC, a client was
    added to or removed from the map, the broadcast of a line began, a line was
    written to a client ([None], or [Some n] if the write failed after n bytes),
    and the closing of a connection, of the listener and of eventC. (eventsocket/server.go:60-186) *)
Inductive obs :=
| OSubmit (e : flow_event) | OAdd (c : nat) | ORemove (c : nat) | OBroadcast (line : bytes)
| OWrite (c : nat) (line : bytes) (failed : option nat) | OHangup (c : nat) | OCloseListener | OCloseChan.

(** Program points.  Of notifyClients (eventsocket/server.go:100-112): the loop
    test, the receive, waiting for the mutex in sendToAllListeners, inside its
    loop with the clients not written to yet, and returned. *)
Inductive npc := NTest | NRecv | NLock (data : bytes) | NSend (line : bytes) (todo : list nat) | NEnd.
(** Of Serve (eventsocket/server.go:156-165): the loop test, Accept, addClient
    waiting for the mutex, and returned. *)
Inductive spc := STest | SAccept | SAdd (c : nat) | SEnd.
(** Of the cleanup goroutine (eventsocket/server.go:148-153). *)
Inductive cpc := CWait | CListener | CChan | CEnd.

(** eventsocket/server.go:51-58 type server, with the program points of its
    goroutines.  [removers] and [closers] are the goroutines started at lines 91
    and 92 which have not run yet; connections are numbered in the order they are
    accepted; [cancelled] is derivedCtx. *)
Record state := mkst {
  cancelled : bool; buf : list flow_event; closed : bool; lclosed : bool; clients : gset nat;
  np : npc; sp : spc; cp : cpc; removers : list nat; closers : list nat; next : nat; crashed : bool; log : list obs }.

(** eventsocket/server.go:189-196 New, after Listen and the start of Serve *)
Definition init : state := mkst false [] false false ∅ NTest STest CWait [] [] 0 false [].

(** eventsocket/server.go:190 make(chan *FlowEvent, 100) *)
Definition capacity : nat := 100.

(** The mutex is only held across steps by sendToAllListeners; addClient and
    removeClient are single steps. (eventsocket/server.go:62-63, 70-71 and 81-82) *)
Definition mutex_free (s : state) : Prop := match np s with NSend _ _ => False | _ => True end.

(** Assignments to the parts of the state of eventsocket/server.go:51-58 and to the
    program points of its goroutines: [set_np] to [set_crashed]. *)
Definition set_np p s := mkst (cancelled s) (buf s) (closed s) (lclosed s) (clients s) p (sp s) (cp s) (removers s) (closers s) (next s) (crashed s) (log s).
(** program point of Serve, eventsocket/server.go:156-165 *)
Definition set_sp p s := mkst (cancelled s) (buf s) (closed s) (lclosed s) (clients s) (np s) p (cp s) (removers s) (closers s) (next s) (crashed s) (log s).
(** program point of the cleanup, eventsocket/server.go:148-153 *)
Definition set_cp p s := mkst (cancelled s) (buf s) (closed s) (lclosed s) (clients s) (np s) (sp s) p (removers s) (closers s) (next s) (crashed s) (log s).
(** contents of eventC, eventsocket/server.go:52 *)
Definition set_buf b s := mkst (cancelled s) b (closed s) (lclosed s) (clients s) (np s) (sp s) (cp s) (removers s) (closers s) (next s) (crashed s) (log s).
(** the map of clients, eventsocket/server.go:54 *)
Definition set_clients m s := mkst (cancelled s) (buf s) (closed s) (lclosed s) m (np s) (sp s) (cp s) (removers s) (closers s) (next s) (crashed s) (log s).
(** goroutines started at eventsocket/server.go:91-92 *)
Definition set_tasks r c s := mkst (cancelled s) (buf s) (closed s) (lclosed s) (clients s) (np s) (sp s) (cp s) r c (next s) (crashed s) (log s).
(** number of the next connection, eventsocket/server.go:158 *)
Definition set_next n s := mkst (cancelled s) (buf s) (closed s) (lclosed s) (clients s) (np s) (sp s) (cp s) (removers s) (closers s) n (crashed s) (log s).
(** close(s.eventC), eventsocket/server.go:151 *)
Definition set_closed s := mkst (cancelled s) (buf s) true (lclosed s) (clients s) (np s) (sp s) (cp s) (removers s) (closers s) (next s) (crashed s) (log s).
(** s.unixListener.Close(), eventsocket/server.go:150 *)
Definition set_lclosed s := mkst (cancelled s) (buf s) (closed s) true (clients s) (np s) (sp s) (cp s) (removers s) (closers s) (next s) (crashed s) (log s).
(** the context of eventsocket/server.go:146 is cancelled *)
Definition set_cancelled s := mkst true (buf s) (closed s) (lclosed s) (clients s) (np s) (sp s) (cp s) (removers s) (closers s) (next s) (crashed s) (log s).
(** a panic (send on a closed channel, eventsocket/server.go:170 or 181) *)
Definition set_crashed s := mkst (cancelled s) (buf s) (closed s) (lclosed s) (clients s) (np s) (sp s) (cp s) (removers s) (closers s) (next s) true (log s).
(** Something is seen (no code of its own). (eventsocket/server.go:60-186) *)
Definition add_log o s := mkst (cancelled s) (buf s) (closed s) (lclosed s) (clients s) (np s) (sp s) (cp s) (removers s) (closers s) (next s) (crashed s) (log s ++ [o]).

Section Server.
(** json.Marshal of an event; [None] is an error *)
Variable marshal : flow_event -> option bytes.

(** Steps of the callers of FlowCreated/FlowDeleted (eventsocket/server.go:170,
    181: a send on eventC, which waits while the channel is full and panics if
    it is closed), of whoever cancels the context, and what makes Accept return
    while the listener is open (eventsocket/server.go:158-162): a client, or an
    error of the operating system. *)
Inductive outside (s : state) : state -> Prop :=
| o_submit e : closed s = false -> length (buf s) < capacity -> outside s (add_log (OSubmit e) (set_buf (buf s ++ [e]) s))
| o_panic (e : flow_event) : closed s = true -> outside s (set_crashed s)
| o_cancel : outside s (set_cancelled s)
| o_accept : sp s = SAccept -> lclosed s = false -> outside s (set_next (S (next s)) (set_sp (SAdd (next s)) s))
| o_error : sp s = SAccept -> lclosed s = false -> outside s (set_sp STest s).

(** Steps of the server; a write to a client is assumed to return. (eventsocket/server.go:60-166) *)
Inductive server (s : state) : state -> Prop :=
(* eventsocket/server.go:100 *)
| n_continue : np s = NTest -> cancelled s = false -> server s (set_np NRecv s)
| n_end : np s = NTest -> cancelled s = true -> server s (set_np NEnd s)
(* eventsocket/server.go:101-110: an event, an event that cannot be marshalled,
   and the nil a closed channel gives *)
| n_event e r d : np s = NRecv -> buf s = e :: r -> marshal e = Some d -> server s (set_np (NLock d) (set_buf r s))
| n_bad e r : np s = NRecv -> buf s = e :: r -> marshal e = None -> server s (set_np NTest (set_buf r s))
| n_nil : np s = NRecv -> buf s = [] -> closed s = true -> server s (set_np NTest s)
(* eventsocket/server.go:81-83: the mutex is free, the iteration begins *)
| n_lock d : np s = NLock d ->
    server s (add_log (OBroadcast (d ++ [x0a])) (set_np (NSend (d ++ [x0a]) (elements (clients s))) s))
(* eventsocket/server.go:84-93: the clients come in any order; a closed
   connection cannot be written to *)
| n_write line l1 c l2 : np s = NSend line (l1 ++ c :: l2) -> OHangup c ∉ log s ->
    server s (add_log (OWrite c line None) (set_np (NSend line (l1 ++ l2)) s))
| n_fail line l1 c l2 n : np s = NSend line (l1 ++ c :: l2) -> n <= length line -> (OHangup c ∈ log s -> n = 0) ->
    server s (add_log (OWrite c line (Some n))
               (set_tasks (removers s ++ [c]) (closers s ++ [c]) (set_np (NSend line (l1 ++ l2)) s)))
| n_unlock line : np s = NSend line [] -> server s (set_np NTest s)
(* eventsocket/server.go:156 *)
| s_continue : sp s = STest -> cancelled s = false -> server s (set_sp SAccept s)
| s_end : sp s = STest -> cancelled s = true -> server s (set_sp SEnd s)
(* eventsocket/server.go:158-162 on a closed listener *)
| s_error : sp s = SAccept -> lclosed s = true -> server s (set_sp STest s)
(* eventsocket/server.go:163 *)
| s_add c : sp s = SAdd c -> mutex_free s -> server s (add_log (OAdd c) (set_sp STest (set_clients ({[c]} ∪ clients s) s)))
(* eventsocket/server.go:149-151 *)
| c_wait : cp s = CWait -> cancelled s = true -> server s (set_cp CListener s)
| c_listener : cp s = CListener -> server s (add_log OCloseListener (set_cp CChan (set_lclosed s)))
| c_chan : cp s = CChan -> server s (add_log OCloseChan (set_cp CEnd (set_closed s)))
(* eventsocket/server.go:67-78 removeClient *)
| r_remove l1 c l2 : removers s = l1 ++ c :: l2 -> mutex_free s -> c ∈ clients s ->
    server s (add_log (ORemove c) (set_clients (clients s ∖ {[c]}) (set_tasks (l1 ++ l2) (closers s) s)))
| r_absent l1 c l2 : removers s = l1 ++ c :: l2 -> mutex_free s -> c ∉ clients s ->
    server s (set_tasks (l1 ++ l2) (closers s) s)
(* eventsocket/server.go:92 *)
| x_hangup l1 c l2 : closers s = l1 ++ c :: l2 -> server s (add_log (OHangup c) (set_tasks (removers s) (l1 ++ l2) s)).

(** A panic ends the process. (eventsocket/server.go:60-186) *)
Inductive step (s : state) : state -> Prop :=
| by_server s' : crashed s = false -> server s s' -> step s s'
| by_outside s' : crashed s = false -> outside s s' -> step s s'.

(** Every state that some schedule leads to (eventsocket/server.go:99-165). *)
Definition reachable (s : state) : Prop := rtc step init s.

(** All goroutines of the server have returned. (eventsocket/server.go:136-166) *)
Definition finished (s : state) : Prop :=
  np s = NEnd /\ sp s = SEnd /\ cp s = CEnd /\ removers s = [] /\ closers s = [].
End Server.
