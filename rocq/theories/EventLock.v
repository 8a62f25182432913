(** Finer model of eventsocket/server.go: the mutex and the wait group servingWG
    step by step, and the map of clients read and written where the code does.
    EventServer.v takes each critical section of addClient and removeClient as one
    step; here they are several.  Log output and metrics are left out. *)
From stdpp Require Import gmap.
From Coq Require Import NArith ZArith.
From Verif Require Import GoBase EventName EventServer.

(** The goroutines of the server that use the mutex: notifyClients, Serve, and the
    removeClient goroutines in the order they are started. (eventsocket/server.go:60-166) *)
Inductive who := Notify | Serve | Remover (i : nat).
#[global] Instance who_eq : EqDecision who.
Proof. solve_decision. Defined.

(** Where notifyClients and sendToAllListeners are (eventsocket/server.go:80-112):
    not started; at servingWG.Add(1); at the loop test; at the receive; at Lock; at
    the beginning of the loop over the clients; in that loop, with the clients that
    have been visited; at the deferred Unlock; at the deferred Done; returned. *)
Inductive fnpc := FNone | FAdd | FTest | FRecv | FLock (data : bytes) | FIter (data : bytes)
| FSend (line : bytes) (visited : list nat) | FUnlock | FDone | FEnd.
(** Where Serve and addClient are (eventsocket/server.go:60-65 and 136-166): at the
    start of notifyClients; at servingWG.Add(1); at the start of the cleanup
    goroutine; at the loop test; in Accept; at Lock; at the write to the map; at
    the deferred Unlock; at the deferred derivedCancel; at the deferred Done;
    returned. *)
Inductive fspc := GNotify | GAdd | GCleanup | GTest | GAccept | GLock (c : nat) | GStore (c : nat) | GUnlock | GCancel | GDone | GEnd.
(** Where the cleanup goroutine is (eventsocket/server.go:147-153). *)
Inductive fcpc := KNone | KWait | KListener | KChan | KDone | KEnd.
(** Where a removeClient goroutine is (eventsocket/server.go:67-78): at
    servingWG.Add(1); at Lock; at the lookup; at the delete; at the deferred Unlock;
    at the deferred Done; returned. *)
Inductive rpc := RAdd | RLock | RLook | RDelete | RUnlock | RDone | REnd.

(** eventsocket/server.go:51-58 type server with its goroutines; [x_lock] is the
    holder of the mutex, [x_wg] the counter of servingWG. *)
Record fine := mkfine {
  x_cancelled : bool; x_buf : list flow_event; x_closed : bool; x_lclosed : bool; x_clients : gset nat; x_lock : option who;
  x_n : fnpc; x_s : fspc; x_c : fcpc; x_rem : list (nat * rpc); x_closers : list nat; x_next : nat; x_wg : nat; x_crashed : bool; x_log : list obs }.

(** eventsocket/server.go:189-196 New and 119-131 Listen, which counts Serve in
    advance; Serve has been called. *)
Definition finit : fine := mkfine false [] false false ∅ None FNone GNotify KNone [] [] 0 1 false [].

(** Assignments to the parts of the state, [p_n] to [p_log] (no code of their own).
    (eventsocket/server.go:51-58) *)
Definition p_n v f := mkfine (x_cancelled f) (x_buf f) (x_closed f) (x_lclosed f) (x_clients f) (x_lock f) v (x_s f) (x_c f) (x_rem f) (x_closers f) (x_next f) (x_wg f) (x_crashed f) (x_log f).
(** see [p_n] (eventsocket/server.go:51-58) *)
Definition p_s v f := mkfine (x_cancelled f) (x_buf f) (x_closed f) (x_lclosed f) (x_clients f) (x_lock f) (x_n f) v (x_c f) (x_rem f) (x_closers f) (x_next f) (x_wg f) (x_crashed f) (x_log f).
(** see [p_n] (eventsocket/server.go:51-58) *)
Definition p_c v f := mkfine (x_cancelled f) (x_buf f) (x_closed f) (x_lclosed f) (x_clients f) (x_lock f) (x_n f) (x_s f) v (x_rem f) (x_closers f) (x_next f) (x_wg f) (x_crashed f) (x_log f).
(** see [p_n] (eventsocket/server.go:51-58) *)
Definition p_tasks r k f := mkfine (x_cancelled f) (x_buf f) (x_closed f) (x_lclosed f) (x_clients f) (x_lock f) (x_n f) (x_s f) (x_c f) r k (x_next f) (x_wg f) (x_crashed f) (x_log f).
(** see [p_n] (eventsocket/server.go:51-58) *)
Definition p_buf v f := mkfine (x_cancelled f) v (x_closed f) (x_lclosed f) (x_clients f) (x_lock f) (x_n f) (x_s f) (x_c f) (x_rem f) (x_closers f) (x_next f) (x_wg f) (x_crashed f) (x_log f).
(** see [p_n] (eventsocket/server.go:51-58) *)
Definition p_clients v f := mkfine (x_cancelled f) (x_buf f) (x_closed f) (x_lclosed f) v (x_lock f) (x_n f) (x_s f) (x_c f) (x_rem f) (x_closers f) (x_next f) (x_wg f) (x_crashed f) (x_log f).
(** s.mutex.Lock() and Unlock() (eventsocket/server.go:62-63, 70-71 and 81-82) *)
Definition p_lock v f := mkfine (x_cancelled f) (x_buf f) (x_closed f) (x_lclosed f) (x_clients f) v (x_n f) (x_s f) (x_c f) (x_rem f) (x_closers f) (x_next f) (x_wg f) (x_crashed f) (x_log f).
(** see [p_n] (eventsocket/server.go:51-58) *)
Definition p_next v f := mkfine (x_cancelled f) (x_buf f) (x_closed f) (x_lclosed f) (x_clients f) (x_lock f) (x_n f) (x_s f) (x_c f) (x_rem f) (x_closers f) v (x_wg f) (x_crashed f) (x_log f).
(** see [p_n] (eventsocket/server.go:51-58) *)
Definition p_closed f := mkfine (x_cancelled f) (x_buf f) true (x_lclosed f) (x_clients f) (x_lock f) (x_n f) (x_s f) (x_c f) (x_rem f) (x_closers f) (x_next f) (x_wg f) (x_crashed f) (x_log f).
(** see [p_n] (eventsocket/server.go:51-58) *)
Definition p_lclosed f := mkfine (x_cancelled f) (x_buf f) (x_closed f) true (x_clients f) (x_lock f) (x_n f) (x_s f) (x_c f) (x_rem f) (x_closers f) (x_next f) (x_wg f) (x_crashed f) (x_log f).
(** see [p_n] (eventsocket/server.go:51-58) *)
Definition p_cancelled f := mkfine true (x_buf f) (x_closed f) (x_lclosed f) (x_clients f) (x_lock f) (x_n f) (x_s f) (x_c f) (x_rem f) (x_closers f) (x_next f) (x_wg f) (x_crashed f) (x_log f).
(** see [p_n] (eventsocket/server.go:51-58) *)
Definition p_crashed f := mkfine (x_cancelled f) (x_buf f) (x_closed f) (x_lclosed f) (x_clients f) (x_lock f) (x_n f) (x_s f) (x_c f) (x_rem f) (x_closers f) (x_next f) (x_wg f) true (x_log f).
(** see [p_n] (eventsocket/server.go:51-58) *)
Definition p_log o f := mkfine (x_cancelled f) (x_buf f) (x_closed f) (x_lclosed f) (x_clients f) (x_lock f) (x_n f) (x_s f) (x_c f) (x_rem f) (x_closers f) (x_next f) (x_wg f) (x_crashed f) (x_log f ++ [o]).
(** servingWG.Add(1) (eventsocket/server.go:68, 98 and 147) *)
Definition wg_add f := mkfine (x_cancelled f) (x_buf f) (x_closed f) (x_lclosed f) (x_clients f) (x_lock f) (x_n f) (x_s f) (x_c f) (x_rem f) (x_closers f) (x_next f) (S (x_wg f)) (x_crashed f) (x_log f).
(** servingWG.Done(), which panics if the counter is 0 (eventsocket/server.go:69,
    99, 137 and 152) *)
Definition wg_done f :=
  match x_wg f with
  | O => p_crashed f
  | S n => mkfine (x_cancelled f) (x_buf f) (x_closed f) (x_lclosed f) (x_clients f) (x_lock f) (x_n f) (x_s f) (x_c f) (x_rem f) (x_closers f) (x_next f) n (x_crashed f) (x_log f)
  end.
(** The goroutine number i of removeClient goes on. (eventsocket/server.go:67-78) *)
Definition p_rem (i c : nat) (p : rpc) f := p_tasks (<[i := (c, p)]> (x_rem f)) (x_closers f) f.

Section Fine.
Variable marshal : flow_event -> option bytes.

(** [EventServer.outside]: callers of FlowCreated and FlowDeleted, the owner of the
    context, and clients that connect. (eventsocket/server.go:158-186) *)
Inductive f_outside (f : fine) : fine -> Prop :=
| fo_submit e : x_closed f = false -> length (x_buf f) < capacity -> f_outside f (p_log (OSubmit e) (p_buf (x_buf f ++ [e]) f))
| fo_panic (e : flow_event) : x_closed f = true -> f_outside f (p_crashed f)
| fo_cancel : f_outside f (p_cancelled f)
| fo_accept : x_s f = GAccept -> x_lclosed f = false -> f_outside f (p_next (S (x_next f)) (p_s (GLock (x_next f)) f))
| fo_error : x_s f = GAccept -> x_lclosed f = false -> f_outside f (p_s GTest f).

(** notifyClients and sendToAllListeners (eventsocket/server.go:80-112); the loop
    over the map gives any client that is in it and has not come yet, and ends when
    there is none *)
Inductive f_notify (f : fine) : fine -> Prop :=
| fn_add : x_n f = FAdd -> f_notify f (p_n FTest (wg_add f))
| fn_continue : x_n f = FTest -> x_cancelled f = false -> f_notify f (p_n FRecv f)
| fn_end : x_n f = FTest -> x_cancelled f = true -> f_notify f (p_n FDone f)
| fn_event e r d : x_n f = FRecv -> x_buf f = e :: r -> marshal e = Some d -> f_notify f (p_n (FLock d) (p_buf r f))
| fn_bad e r : x_n f = FRecv -> x_buf f = e :: r -> marshal e = None -> f_notify f (p_n FTest (p_buf r f))
| fn_nil : x_n f = FRecv -> x_buf f = [] -> x_closed f = true -> f_notify f (p_n FTest f)
| fn_lock d : x_n f = FLock d -> x_lock f = None -> f_notify f (p_n (FIter d) (p_lock (Some Notify) f))
| fn_iter d : x_n f = FIter d -> f_notify f (p_log (OBroadcast (d ++ [x0a])) (p_n (FSend (d ++ [x0a]) []) f))
| fn_write line l c : x_n f = FSend line l -> c ∈ x_clients f -> c ∉ l -> OHangup c ∉ x_log f ->
    f_notify f (p_log (OWrite c line None) (p_n (FSend line (c :: l)) f))
| fn_fail line l c n : x_n f = FSend line l -> c ∈ x_clients f -> c ∉ l -> n <= length line -> (OHangup c ∈ x_log f -> n = 0) ->
    f_notify f (p_log (OWrite c line (Some n)) (p_tasks (x_rem f ++ [(c, RAdd)]) (x_closers f ++ [c]) (p_n (FSend line (c :: l)) f)))
| fn_over line l : x_n f = FSend line l -> (forall c, c ∈ x_clients f -> c ∈ l) -> f_notify f (p_n FUnlock f)
| fn_unlock : x_n f = FUnlock -> f_notify f (p_n FTest (p_lock None f))
| fn_done : x_n f = FDone -> f_notify f (p_n FEnd (wg_done f)).

(** Serve and addClient (eventsocket/server.go:60-65 and 136-166) *)
Inductive f_serve (f : fine) : fine -> Prop :=
| fg_notify : x_s f = GNotify -> f_serve f (p_s GAdd (p_n FAdd f))
| fg_add : x_s f = GAdd -> f_serve f (p_s GCleanup (wg_add f))
| fg_cleanup : x_s f = GCleanup -> f_serve f (p_s GTest (p_c KWait f))
| fg_continue : x_s f = GTest -> x_cancelled f = false -> f_serve f (p_s GAccept f)
| fg_end : x_s f = GTest -> x_cancelled f = true -> f_serve f (p_s GCancel f)
| fg_error : x_s f = GAccept -> x_lclosed f = true -> f_serve f (p_s GTest f)
| fg_lock c : x_s f = GLock c -> x_lock f = None -> f_serve f (p_s (GStore c) (p_lock (Some Serve) f))
| fg_store c : x_s f = GStore c -> f_serve f (p_log (OAdd c) (p_s GUnlock (p_clients ({[c]} ∪ x_clients f) f)))
| fg_unlock : x_s f = GUnlock -> f_serve f (p_s GTest (p_lock None f))
| fg_cancel : x_s f = GCancel -> f_serve f (p_s GDone (p_cancelled f))
| fg_done : x_s f = GDone -> f_serve f (p_s GEnd (wg_done f)).

(** The cleanup goroutine (eventsocket/server.go:147-153) *)
Inductive f_cleanup (f : fine) : fine -> Prop :=
| fk_wait : x_c f = KWait -> x_cancelled f = true -> f_cleanup f (p_c KListener f)
| fk_listener : x_c f = KListener -> f_cleanup f (p_log OCloseListener (p_c KChan (p_lclosed f)))
| fk_chan : x_c f = KChan -> f_cleanup f (p_log OCloseChan (p_c KDone (p_closed f)))
| fk_done : x_c f = KDone -> f_cleanup f (p_c KEnd (wg_done f)).

(** removeClient number i (eventsocket/server.go:67-78) *)
Inductive f_remover (i : nat) (f : fine) : fine -> Prop :=
| fr_add c : x_rem f !! i = Some (c, RAdd) -> f_remover i f (p_rem i c RLock (wg_add f))
| fr_lock c : x_rem f !! i = Some (c, RLock) -> x_lock f = None -> f_remover i f (p_rem i c RLook (p_lock (Some (Remover i)) f))
| fr_present c : x_rem f !! i = Some (c, RLook) -> c ∈ x_clients f -> f_remover i f (p_rem i c RDelete f)
| fr_absent c : x_rem f !! i = Some (c, RLook) -> c ∉ x_clients f -> f_remover i f (p_rem i c RUnlock f)
| fr_delete c : x_rem f !! i = Some (c, RDelete) -> f_remover i f (p_log (ORemove c) (p_rem i c RUnlock (p_clients (x_clients f ∖ {[c]}) f)))
| fr_unlock c : x_rem f !! i = Some (c, RUnlock) -> f_remover i f (p_rem i c RDone (p_lock None f))
| fr_done c : x_rem f !! i = Some (c, RDone) -> f_remover i f (p_rem i c REnd (wg_done f)).

(** go c.Close() (eventsocket/server.go:92) *)
Inductive f_closer (f : fine) : fine -> Prop :=
| fx_hangup l1 c l2 : x_closers f = l1 ++ c :: l2 -> f_closer f (p_log (OHangup c) (p_tasks (x_rem f) (l1 ++ l2) f)).

(** A step of one of the goroutines that use the mutex. (eventsocket/server.go:60-166) *)
Definition goes (g : who) (f f' : fine) : Prop :=
  match g with Notify => f_notify f f' | Serve => f_serve f f' | Remover i => f_remover i f f' end.
(** A step of any goroutine of the server, or of its surroundings; a panic ends the
    process. (eventsocket/server.go:60-186) *)
Inductive fine_step (f : fine) : fine -> Prop :=
| by_goroutine g f' : x_crashed f = false -> goes g f f' -> fine_step f f'
| by_cleanup f' : x_crashed f = false -> f_cleanup f f' -> fine_step f f'
| by_closer f' : x_crashed f = false -> f_closer f f' -> fine_step f f'
| by_others f' : x_crashed f = false -> f_outside f f' -> fine_step f f'.
(** Every state that some schedule leads to. (eventsocket/server.go:60-186) *)
Definition fine_reachable (f : fine) : Prop := rtc fine_step finit f.
End Fine.
