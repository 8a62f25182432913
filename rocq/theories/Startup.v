(** Model of the start of main.go up to the collector, and of the file of the
    event socket (eventsocket/server.go:119-131 Listen, 148-151).  The parts of
    the operating system and of package net they rely on are modelled too: what
    is at a path, os.Remove, net.Listen and Close of a Unix socket.  Left out:
    names that begin with '@' (sockets without a file), symbolic links, and
    several names of one file. *)
From Coq Require Import Strings.String List Arith Bool.
From Verif Require Import GoBase.
Import ListNotations.
Local Open Scope list_scope.

(** What is at a path: nothing, a file, a directory (with or without something in
    it) or a socket bound by the listener with this number. (eventsocket/server.go:119-131) *)
Inductive node := Nothing | Regular (data : bytes) | Directory (empty : bool) | Socket (listener : nat).
(** Paths, the listeners that are open, and the number of the next one. (eventsocket/server.go:119-131) *)
Record machine := mkmachine { at_path : bytes -> node; listening : list nat; next_listener : nat }.

(** Assignment to a path (no code of its own). (eventsocket/server.go:119-131) *)
Definition put (p : bytes) (n : node) (m : machine) : machine :=
  mkmachine (fun q => if bytes_eqb q p then n else at_path m q) (listening m) (next_listener m).
(** os.Remove, called at eventsocket/server.go:128, which ignores its error:
    everything goes but a directory that has something in it.  That it can fail
    for lack of rights is left out (net.Listen would fail as well). *)
Definition os_remove (p : bytes) (m : machine) : machine :=
  match at_path m p with Directory false => m | _ => put p Nothing m end.
(** net.Listen("unix", p), called at eventsocket/server.go:129: bind(2) demands
    that nothing is at the path; [ok] is false if it fails for another reason,
    such as a missing directory or missing rights. *)
Definition net_listen (ok : bool) (p : bytes) (m : machine) : option nat * machine :=
  match at_path m p with
  | Nothing => if ok then
      let i := next_listener m in (Some i, let m := put p (Socket i) m in mkmachine (at_path m) (i :: listening m) (S i))
    else (None, m)
  | _ => (None, m)
  end.
(** eventsocket/server.go:119-131 Listen *)
Definition listen (ok : bool) (p : bytes) (m : machine) : option nat * machine := net_listen ok p (os_remove p m).
(** s.unixListener.Close(), eventsocket/server.go:150: package net unlinks the
    path it was given, whatever is there now (unlink(2) does not remove
    directories), and closes the socket. *)
Definition close_listener (i : nat) (p : bytes) (m : machine) : machine :=
  if existsb (Nat.eqb i) (listening m) then
    let m := match at_path m p with Directory _ => m | _ => put p Nothing m end in
    mkmachine (at_path m) (filter (fun j => negb (Nat.eqb j i)) (listening m)) (next_listener m)
  else m.
(** The process ends without closing its listener, as it does when main returns
    (main.go:85 cancels ctx, but nobody waits for eventsocket/server.go:148-153)
    or is killed. *)
Definition die (i : nat) (m : machine) : machine :=
  mkmachine (at_path m) (filter (fun j => negb (Nat.eqb j i)) (listening m)) (next_listener m).
(** net.Dial("unix", p), eventsocket/client.go:37: the listener it reaches *)
Definition dial (p : bytes) (m : machine) : option nat :=
  match at_path m p with
  | Socket i => if existsb (Nat.eqb i) (listening m) then Some i else None
  | _ => None
  end.

(** The absolute path of a name used by a process with this current directory. (main.go:87-113) *)
Definition resolve (cwd name : bytes) : bytes :=
  match name with
  | c :: _ => if Byte.eqb c x2f then name else cwd ++ x2f :: name
  | [] => cwd
  end.
(** The answers to what main does at main.go:88, 89, 97, 101 and 103, and to bind(2). *)
Record answers := mkans { mkdir_all_ok : bool; chdir_ok : bool; metrics_ok : bool; create_ok : bool; trace_ok : bool; bind_ok : bool }.
(** The end of the process (rtx.PanicOnError, rtx.Must), or the collector is
    started: with this current directory and this listener, if there is an event
    server (NullServer otherwise). (main.go:82-147) *)
Inductive started := Died | Started (cwd : bytes) (listener : option nat).
(** main.go:82-113.  [output], [enable] and [name] are the values of -output,
    -trace and -tcpinfo.eventsocket.  That MkdirAll makes directories is left out,
    as are profiling and the contents of the trace. *)
Definition main_start (a : answers) (cwd output : bytes) (enable : bool) (name : bytes) (m : machine) : started * machine :=
  match (match output with
         | [] => Some cwd
         | _ => if mkdir_all_ok a then if chdir_ok a then Some (resolve cwd output) else None else None
         end) with
  | None => (Died, m)
  | Some cwd =>
    if negb (metrics_ok a) then (Died, m) else
    match (if enable then
             if create_ok a then
               let m := put (resolve cwd (str "trace")) (Regular []) m in
               if trace_ok a then (true, m) else (false, m)
             else (false, m)
           else (true, m)) with
    | (false, m) => (Died, m)
    | (true, m) =>
      match name with
      | [] => (Started cwd None, m)
      | _ =>
        match listen (bind_ok a) (resolve cwd name) m with
        | (Some i, m) => (Started cwd (Some i), m)
        | (None, m) => (Died, m)
        end
      end
    end
  end.

(** What can happen at the path of an event socket: a process starts to listen
    (with this answer of bind), a listener is closed, a process ends, or somebody
    else puts something there. (eventsocket/server.go:119-131) *)
Inductive happening := Listens (ok : bool) | Closes (i : nat) | Dies (i : nat) | Puts (n : node).
(** one of these happenings (eventsocket/server.go:119-131) *)
Definition happen (p : bytes) (m : machine) (h : happening) : machine :=
  match h with
  | Listens ok => snd (listen ok p m)
  | Closes i => close_listener i p m
  | Dies i => die i m
  | Puts n => put p n m
  end.
(** one after the other, from a machine on which nothing listens (eventsocket/server.go:119-131) *)
Definition history (p : bytes) (n : node) (hs : list happening) : machine :=
  fold_left (happen p) hs (mkmachine (fun q => if bytes_eqb q p then n else Nothing) [] 0).
