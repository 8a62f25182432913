(** Model of eventsocket/client.go, with json.Marshal and json.Unmarshal on
    eventsocket.FlowEvent. *)
From Coq Require Import Strings.String List NArith ZArith Bool.
From Verif Require Import GoBase GoTime Rfc3339 Json Archive Reader Inetdiag EventName EventServer.
Import ListNotations.
Local Open Scope list_scope.

(** ** What the server writes, eventsocket/server.go:105 *)
(** inetdiag/structs.go:139-146 type SockID *)
Definition sockid_json (id : sockid) : json :=
  JObj [(str "SPort", JNum (dec (sid_sport id))); (str "DPort", JNum (dec (sid_dport id)));
        (str "SrcIP", JStr (quote (sid_src id))); (str "DstIP", JStr (quote (sid_dst id)));
        (str "Interface", JNum (dec (sid_if id))); (str "Cookie", JNum (decZ (sid_cookie id)))].
(** eventsocket/server.go:34-39 type FlowEvent; TCPEvent has a String method
    (which JSON does not use) and is written as a number.  [zone] is the location
    of the times (see Archive.v). *)
Definition event_json (zone : Z -> Z) (e : flow_event) : option json :=
  match time_json zone (fe_time e) with
  | Some t => Some (JObj [(str "Event", JNum (decZ (fe_event e))); (str "Timestamp", t); (str "UUID", JStr (quote (fe_uuid e)));
                          (str "ID", match fe_id e with Some id => sockid_json id | None => JNull end)])
  | None => None
  end.
(** json.Marshal of an event, None for an error (eventsocket/server.go:105) *)
Definition marshal_event (zone : Z -> Z) (e : flow_event) : option bytes :=
  match event_json zone e with Some j => Some (render j) | None => None end.

(** ** What the client makes of a line, eventsocket/client.go:50-51 *)
Definition sockid_field (k : bytes) (v : json) (id : sockid) : option sockid :=
  if same_key (str "SPort") k then
    option_map (fun x => mksockid x (sid_dport id) (sid_src id) (sid_dst id) (sid_if id) (sid_cookie id)) (read_uint 65535 v (sid_sport id))
  else if same_key (str "DPort") k then
    option_map (fun x => mksockid (sid_sport id) x (sid_src id) (sid_dst id) (sid_if id) (sid_cookie id)) (read_uint 65535 v (sid_dport id))
  else if same_key (str "SrcIP") k then
    option_map (fun x => mksockid (sid_sport id) (sid_dport id) x (sid_dst id) (sid_if id) (sid_cookie id)) (read_string v (sid_src id))
  else if same_key (str "DstIP") k then
    option_map (fun x => mksockid (sid_sport id) (sid_dport id) (sid_src id) x (sid_if id) (sid_cookie id)) (read_string v (sid_dst id))
  else if same_key (str "Interface") k then
    option_map (fun x => mksockid (sid_sport id) (sid_dport id) (sid_src id) (sid_dst id) x (sid_cookie id)) (read_uint 4294967295 v (sid_if id))
  else if same_key (str "Cookie") k then
    option_map (fun x => mksockid (sid_sport id) (sid_dport id) (sid_src id) (sid_dst id) (sid_if id) x) (read_int min_int64 max_int64 v (sid_cookie id))
  else Some id.
(** inetdiag/structs.go:139-146 new(SockID) *)
Definition zero_sockid : sockid := mksockid 0 0 [] [] 0 0.
(** Into a *SockID: null gives nil, an object is read into the old struct if
    there is one (eventsocket/client.go:50, eventsocket/server.go:38) *)
Definition read_sockid (v : json) (old : option sockid) : option (option sockid) :=
  match v with
  | JNull => Some None
  | JObj l => option_map Some (read_fields sockid_field l (match old with Some id => id | None => zero_sockid end))
  | _ => None
  end.
(** One member of the object for a FlowEvent, eventsocket/server.go:34-39 *)
Definition event_field (k : bytes) (v : json) (e : flow_event) : option flow_event :=
  if same_key (str "Event") k then
    option_map (fun x => mkfe x (fe_time e) (fe_uuid e) (fe_id e)) (read_int min_int64 max_int64 v (fe_event e))
  else if same_key (str "Timestamp") k then
    option_map (fun x => mkfe (fe_event e) x (fe_uuid e) (fe_id e)) (read_time v (fe_time e))
  else if same_key (str "UUID") k then
    option_map (fun x => mkfe (fe_event e) (fe_time e) x (fe_id e)) (read_string v (fe_uuid e))
  else if same_key (str "ID") k then
    option_map (fun x => mkfe (fe_event e) (fe_time e) (fe_uuid e) x) (read_sockid v (fe_id e))
  else Some e.
(** eventsocket/client.go:49 var event FlowEvent *)
Definition zero_event : flow_event := mkfe 0 zero_time [] None.
(** json.Unmarshal(s.Bytes(), &event), eventsocket/client.go:50 *)
Definition unmarshal_event (buf : bytes) : outcome flow_event :=
  match parse buf with
  | Some JNull => Ret zero_event
  | Some (JObj l) => match read_fields event_field l zero_event with Some e => Ret e | None => Fail ErrJSON end
  | _ => Fail ErrJSON
  end.

(** ** MustRun *)
(** The calls of the handler; its context argument is left out. (eventsocket/client.go:27-30) *)
Inductive call := COpen (t : Z) (uuid : bytes) (id : option sockid) | CClose (t : Z) (uuid : bytes).
(** How MustRun ends: it returns, or rtx.Must ends the process. (eventsocket/client.go:34-75) *)
Inductive ending := Returned | Fatal (e : goerr).

(** eventsocket/client.go:51-58: the switch *)
Definition dispatch (e : flow_event) : list call :=
  if (fe_event e =? Open)%Z then [COpen (fe_time e) (fe_uuid e) (fe_id e)]
  else if (fe_event e =? Close)%Z then [CClose (fe_time e) (fe_uuid e)]
  else [].

(** eventsocket/client.go:70-74: Scanner.Err hides io.EOF, and the error of a
    closed connection is hidden here *)
Definition final_error (err : option goerr) : ending :=
  match err with
  | None | Some ErrEOF | Some ErrNetClosed => Returned
  | Some e => Fatal e
  end.

(** eventsocket/client.go:48-59, the loop; the handler is assumed to return *)
Fixpoint run_go (fuel : nat) (s : scanner) (calls : list call) : outcome (list call * ending) :=
  match fuel with
  | O => Diverge
  | S f =>
      match scan s with
      | (Ret (Some line), s') =>
          match unmarshal_event line with
          | Ret e => run_go f s' (calls ++ dispatch e)
          | Fail e => Ret (calls, Fatal e)
          | Panic => Panic
          | Diverge => Diverge
          end
      | (Ret None, s') => Ret (calls, final_error (sc_err s'))
      | (Fail _, _) | (Panic, _) => Panic
      | (Diverge, _) => Diverge
      end
  end.
(** eventsocket/client.go:34-75 MustRun.  [conn] is the connection that net.Dial
    returns, or its error.  The goroutine of lines 39-44 is part of the input:
    the connection's reads end with [ErrNetClosed] if it has closed it. *)
Definition must_run (conn : outcome input) : outcome (list call * ending) :=
  match conn with
  | Ret i => run_go (2 + length (concat (in_chunks i))) (new_scanner i) []
  | Fail e => Ret ([], Fatal e)
  | Panic => Panic
  | Diverge => Diverge
  end.
