(** What the handler of an event client can rely on. *)
From Coq Require Import List NArith ZArith Bool.
From Verif Require Import GoBase Reader SpecReader SpecJson SpecArchive Inetdiag EventServer EventClient.
Import ListNotations.
Local Open Scope list_scope.

(** The calls that an event stands for: one for Open (0) and Close (1), none for
    other numbers. *)
Inductive handled : flow_event -> list call -> Prop :=
| handled_open t u id : handled (mkfe 0 t u id) [COpen t u id]
| handled_close t u id : handled (mkfe 1 t u id) [CClose t u]
| handled_other n t u id : n <> 0%Z -> n <> 1%Z -> handled (mkfe n t u id) [].

(** The connection ends as expected: the other side hung up, or it was closed
    because the context is done. *)
Definition quiet (final : goerr) : Prop := final = ErrEOF \/ final = ErrNetClosed.

(** From the lines of the stream to the calls of the handler and the end of
    MustRun: one event per line; the first line that is too long or is no event is
    fatal, as is an unexpected error of the connection. *)
Inductive serves (eager : bool) (final : goerr) : list (bytes * bool) -> list call -> ending -> Prop :=
| serves_end : quiet final -> serves eager final [] [] Returned
| serves_error : ~ quiet final -> serves eager final [] [] (Fatal final)
| serves_long l ls : fits eager l = false -> serves eager final (l :: ls) [] (Fatal ErrIO)
| serves_bad l ls e : fits eager l = true -> unmarshal_event (without_cr (fst l)) = Fail e -> serves eager final (l :: ls) [] (Fatal e)
| serves_line l ls ev c cs e : fits eager l = true -> unmarshal_event (without_cr (fst l)) = Ret ev -> handled ev c ->
    serves eager final ls cs e -> serves eager final (l :: ls) (c ++ cs) e.

(** Values of Go's types, with texts in UTF-8 and times with a four-digit year. *)
Definition proper_sockid (id : sockid) : Prop :=
  (sid_sport id < 65536)%N /\ (sid_dport id < 65536)%N /\ utf8 (sid_src id) /\ utf8 (sid_dst id) /\
  (sid_if id < 4294967296)%N /\ (-9223372036854775808 <= sid_cookie id <= 9223372036854775807)%Z.
Definition proper_event (zone : Z -> Z) (e : flow_event) : Prop :=
  (-9223372036854775808 <= fe_event e <= 9223372036854775807)%Z /\ writable_time zone (fe_time e) /\ utf8 (fe_uuid e) /\
  forall id, fe_id e = Some id -> proper_sockid id.

(** The line that the server sends for an event (empty if it sends none). *)
Definition event_text (zone : Z -> Z) (e : flow_event) : bytes :=
  match marshal_event zone e with Some b => b | None => [] end.
Definition event_line (zone : Z -> Z) (e : flow_event) : bytes := event_text zone e ++ [x0a].
(** It is below the limit of bufio.Scanner. *)
Definition brief (zone : Z -> Z) (e : flow_event) : Prop := (N.of_nat (length (event_text zone e)) < 65536)%N.

(** What is reported to the event server (FlowCreated, FlowDeleted), and what the
    handler should be told. *)
Inductive report := Created (t : Z) (uuid : bytes) (id : sockid) | Deleted (t : Z) (uuid : bytes).
Definition event_of (r : report) : flow_event :=
  match r with Created t u id => flow_created t u id | Deleted t u => flow_deleted t u end.
Definition told (r : report) : call :=
  match r with Created t u id => COpen t u (Some id) | Deleted t u => CClose t u end.
