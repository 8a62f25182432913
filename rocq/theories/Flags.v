(** Model of how main.go and cmd/example-eventsocket-client/main.go read their
    command line and environment: flag.Parse (Go 1.20) and ArgsFromEnv and
    StringArray of github.com/m-lab/go/flagx (v0.1.66).  The texts of messages are
    left out.  Flags that libraries define for themselves, such as the address for
    Prometheus, are arbitrary; what is known of them is whether they accept a value. *)
From Coq Require Import Strings.String List NArith ZArith Bool.
From Verif Require Import GoBase NetIP.
Import ListNotations.
Local Open Scope list_scope.
Local Open Scope N_scope.

(** * Values *)

(** strconv's errors. (flag -reps, main.go:66) *)
Inductive num_err := NSyntax | NRange.
(** The value of a digit or letter in strconv.ParseUint; lower(c) = c | 0x20. (flag -reps, main.go:66) *)
Definition digit_of (c : byte) : option N :=
  let l := N.lor (bval c) 32 in
  if is_dig c then Some (bval c - 48)
  else if (97 <=? l) && (l <=? 122) then Some (l - 97 + 10) else None.
(** The largest uint64. (flag -reps, main.go:66) *)
Definition max64 : N := 18446744073709551615.
(** The loop of strconv.ParseUint(s, 0, 64); the two tests for overflow are
    one test on unbounded numbers here.  The second result: whether there was an
    underscore. (flag -reps, main.go:66) *)
Fixpoint uint_loop (base n : N) (us : bool) (s : bytes) : num_err + N * bool :=
  match s with
  | [] => inr (n, us)
  | c :: r =>
    if Byte.eqb c x5f then uint_loop base n true r
    else match digit_of c with
         | None => inl NSyntax
         | Some d => if base <=? d then inl NSyntax
                     else if max64 <? n * base + d then inl NRange
                     else uint_loop base (n * base + d) us r
         end
  end.
(** The states of strconv.underscoreOK: '^' (beginning), '0' (digit or prefix),
    '_', '!' (none of the above). (flag -reps, main.go:66) *)
Inductive ustate := UBegin | UDigit | UUnder | UOther.
(** The loop of strconv.underscoreOK. (flag -reps, main.go:66) *)
Fixpoint under_loop (hex : bool) (i : ustate) (s : bytes) : bool :=
  match s with
  | [] => match i with UUnder => false | _ => true end
  | c :: r =>
    let l := N.lor (bval c) 32 in
    if is_dig c || hex && ((97 <=? l) && (l <=? 102)) then under_loop hex UDigit r
    else if Byte.eqb c x5f then match i with UDigit => under_loop hex UUnder r | _ => false end
    else match i with UUnder => false | _ => under_loop hex UOther r end
  end.
(** strconv.underscoreOK; the sign has been taken off before. (flag -reps, main.go:66) *)
Definition underscore_ok (s : bytes) : bool :=
  match s with
  | z :: p :: r =>
    let l := N.lor (bval p) 32 in
    if Byte.eqb z x30 && ((l =? 98) || (l =? 111) || (l =? 120)) then under_loop (l =? 120) UDigit r
    else under_loop false UBegin s
  | _ => under_loop false UBegin s
  end.
(** The base and the digits that strconv.ParseUint(s, 0, 64) finds. (flag -reps, main.go:66) *)
Definition base_of (s : bytes) : N * bytes :=
  match s with
  | z :: r =>
    if Byte.eqb z x30 then
      match r with
      | p :: q :: t =>
        let l := N.lor (bval p) 32 in
        if l =? 98 then (2, q :: t) else if l =? 111 then (8, q :: t) else if l =? 120 then (16, q :: t) else (8, r)
      | _ => (8, r)
      end
    else (10, s)
  | [] => (10, [])
  end.
(** strconv.ParseUint(s, 0, 64) (flag -reps, main.go:66) *)
Definition parse_uint64 (s : bytes) : num_err + N :=
  match s with
  | [] => inl NSyntax
  | _ =>
    let '(base, ds) := base_of s in
    match uint_loop base 0 false ds with
    | inl e => inl e
    | inr (n, us) => if us && negb (underscore_ok s) then inl NSyntax else inr n
    end
  end.
(** strconv.ParseInt(s, 0, 64): the value, which is used even if there is an
    error, and whether there is none. (flag -reps, main.go:66) *)
Definition parse_int64 (s : bytes) : Z * bool :=
  let body neg t :=
    let bounded un :=
      if negb neg && (9223372036854775808 <=? un) then (9223372036854775807%Z, false)
      else if neg && (9223372036854775808 <? un) then ((-9223372036854775808)%Z, false)
      else ((if neg then - Z.of_N un else Z.of_N un)%Z, true) in
    match parse_uint64 t with
    | inl NSyntax => (0%Z, false)
    | inl NRange => bounded max64
    | inr un => bounded un
    end in
  match s with
  | [] => (0%Z, false)
  | c :: r => if Byte.eqb c x2b then body false r else if Byte.eqb c x2d then body true r else body false s
  end.
(** strconv.ParseBool: the value, which is used even if there is an error, and
    whether there is none. (flag -trace, main.go:67) *)
Definition parse_bool (s : bytes) : bool * bool :=
  if existsb (bytes_eqb s) [str "1"; str "t"; str "T"; str "true"; str "TRUE"; str "True"] then (true, true)
  else if existsb (bytes_eqb s) [str "0"; str "f"; str "F"; str "false"; str "FALSE"; str "False"] then (false, true)
  else (false, false).
(** strings.Split(s, ","), in flagx.StringArray.Set (main.go:69-70) *)
Fixpoint split_comma (s : bytes) : list bytes :=
  match s with
  | [] => [[]]
  | c :: r => if Byte.eqb c x2c then [] :: split_comma r
              else match split_comma r with w :: ws => (c :: w) :: ws | [] => [[c]] end
  end.

(** * flag.Parse *)

(** A flag: flag.Value with its method Set, which reports whether it accepted
    the value, and IsBoolFlag. (main.go:66-70, eventsocket/client.go:21) *)
Record flag (S : Type) := mkflag { is_bool : bool; set_to : bytes -> S -> S * bool }.
Arguments mkflag {S}. Arguments is_bool {S}. Arguments set_to {S}.
(** The flags by name, FlagSet.formal. (main.go:66-70) *)
Fixpoint find_flag {S} (n : bytes) (fs : list (bytes * flag S)) : option (flag S) :=
  match fs with
  | [] => None
  | (m, f) :: r => if bytes_eqb m n then Some f else find_flag n r
  end.
(** Looking for '=' from the second byte on, in FlagSet.parseOne. (main.go:83) *)
Fixpoint cut_eq (s : bytes) : bytes * option bytes :=
  match s with
  | [] => ([], None)
  | c :: r => if Byte.eqb c x3d then ([], Some r) else let '(n, v) := cut_eq r in (c :: n, v)
  end.
(** The end of flag.Parse: the values, the flags that were given (FlagSet.actual)
    and the arguments that are left; os.Exit(0) for -h and -help; os.Exit(2) for
    an error. (main.go:83) *)
Inductive parsed (S : Type) := Parsed (st : S) (given : list bytes) (rest : list bytes) | Helped | Misused.
Arguments Parsed {S}. Arguments Helped {S}. Arguments Misused {S}.
(** FlagSet.Parse and parseOne (main.go:83) *)
Fixpoint parse {S} (fs : list (bytes * flag S)) (args : list bytes) (st : S) (given : list bytes) : parsed S :=
  match args with
  | (c :: d :: s) :: r =>
    if negb (Byte.eqb c x2d) then Parsed st given args
    else if Byte.eqb d x2d && match s with [] => true | _ => false end then Parsed st given r
    else
      match (if Byte.eqb d x2d then s else d :: s) with
      | [] => Misused
      | a :: t =>
        if Byte.eqb a x2d || Byte.eqb a x3d then Misused
        else
          let '(n, v) := cut_eq t in
          let name := a :: n in
          match find_flag name fs with
          | None => if bytes_eqb name (str "help") || bytes_eqb name (str "h") then Helped else Misused
          | Some f =>
            if is_bool f then
              let '(st', ok) := set_to f (match v with Some v => v | None => str "true" end) st in
              if ok then parse fs r st' (name :: given) else Misused
            else
              match v with
              | Some v => let '(st', ok) := set_to f v st in if ok then parse fs r st' (name :: given) else Misused
              | None =>
                match r with
                | [] => Misused
                | v :: r' => let '(st', ok) := set_to f v st in if ok then parse fs r' st' (name :: given) else Misused
                end
              end
          end
      end
  | _ => Parsed st given args
  end.

(** * flagx.ArgsFromEnv *)

(** flagx.MakeShellVariableName: upper case, '_' for what is neither letter nor
    digit, and before a first digit. (main.go:84) *)
Definition shell_char (c : byte) : byte :=
  if is_dig c then c
  else if (65 <=? bval c) && (bval c <=? 90) then c
  else if (97 <=? bval c) && (bval c <=? 122) then byte_of (bval c - 32)
  else x5f.
(** see [shell_char] (main.go:84) *)
Definition shell_name (n : bytes) : bytes :=
  match n with
  | c :: _ => if is_dig c then x5f :: map shell_char n else map shell_char n
  | [] => []
  end.
(** flagx.ArgsFromEnv: every flag that was not given takes the value of its
    variable, if there is one.  The result: the values and whether all were
    accepted.  The flags are visited in another order, which makes no difference.
    (main.go:84) *)
Definition args_from_env {S} (fs : list (bytes * flag S)) (given : list bytes) (env : bytes -> option bytes) (st : S) : S * bool :=
  fold_left (fun '(st, ok) '(n, f) =>
    if existsb (bytes_eqb n) given then (st, ok)
    else match env (shell_name n) with
         | None => (st, ok)
         | Some v => let '(st', ok') := set_to f v st in (st', ok && ok')
         end) fs (st, true).

(** * The flags of main.go *)

(** github.com/m-lab/go/anonymize: Method, used at main.go:142 *)
Inductive method := MNone | MNetblock.
(** The variables behind the flags: main.go:57-61, eventsocket/client.go:21 and
    anonymize.IPAnonymizationFlag (main.go:142). *)
Record settings := mkset {
  f_reps : Z; f_trace : bool; f_output : bytes; f_ports : list bytes; f_ips : list bytes; f_socket : bytes; f_anon : method }.
(** Their values before flags are read. (main.go:57-70, eventsocket/client.go:21) *)
Definition defaults : settings := mkset 0 false [] [] [] [] MNone.
(** flag.IntVar(&reps, ...): the variable is assigned even if there is an error. (main.go:66) *)
Definition set_reps (v : bytes) (s : settings) : settings * bool :=
  let '(z, ok) := parse_int64 v in (mkset z (f_trace s) (f_output s) (f_ports s) (f_ips s) (f_socket s) (f_anon s), ok).
(** flag.BoolVar(&enableTrace, ...): likewise (main.go:67) *)
Definition set_trace (v : bytes) (s : settings) : settings * bool :=
  let '(b, ok) := parse_bool v in (mkset (f_reps s) b (f_output s) (f_ports s) (f_ips s) (f_socket s) (f_anon s), ok).
(** flag.StringVar(&outputDir, ...) (main.go:68) *)
Definition set_output (v : bytes) (s : settings) : settings * bool :=
  (mkset (f_reps s) (f_trace s) v (f_ports s) (f_ips s) (f_socket s) (f_anon s), true).
(** flagx.StringArray.Set (main.go:69) *)
Definition set_ports (v : bytes) (s : settings) : settings * bool :=
  (mkset (f_reps s) (f_trace s) (f_output s) (f_ports s ++ split_comma v) (f_ips s) (f_socket s) (f_anon s), true).
(** flagx.StringArray.Set (main.go:70) *)
Definition set_ips (v : bytes) (s : settings) : settings * bool :=
  (mkset (f_reps s) (f_trace s) (f_output s) (f_ports s) (f_ips s ++ split_comma v) (f_socket s) (f_anon s), true).
(** flag.String("tcpinfo.eventsocket", ...) (eventsocket/client.go:21) *)
Definition set_socket (v : bytes) (s : settings) : settings * bool :=
  (mkset (f_reps s) (f_trace s) (f_output s) (f_ports s) (f_ips s) v (f_anon s), true).
(** anonymize.Method.Set: an unknown method leaves the variable alone. (main.go:142) *)
Definition set_anon (v : bytes) (s : settings) : settings * bool :=
  if bytes_eqb v (str "none") then (mkset (f_reps s) (f_trace s) (f_output s) (f_ports s) (f_ips s) (f_socket s) MNone, true)
  else if bytes_eqb v (str "netblock") then (mkset (f_reps s) (f_trace s) (f_output s) (f_ports s) (f_ips s) (f_socket s) MNetblock, true)
  else (s, false).
(** The flags main.go uses. (main.go:66-70 and 142, eventsocket/client.go:21) *)
Definition own_flags : list (bytes * flag settings) :=
  [(str "reps", mkflag false set_reps); (str "trace", mkflag true set_trace); (str "output", mkflag false set_output);
   (str "exclude-srcport", mkflag false set_ports); (str "exclude-dstip", mkflag false set_ips);
   (str "tcpinfo.eventsocket", mkflag false set_socket); (str "anonymize.ip", mkflag false set_anon)].
(** A flag of a library: its name, IsBoolFlag and the values it accepts. (imports of main.go:3-30) *)
Definition library := list (bytes * (bool * (bytes -> bool))).
(** Such flags leave the variables above alone. (imports of main.go:3-30) *)
Definition lib_flags {S} (lib : library) : list (bytes * flag S) :=
  map (fun '(n, (b, acc)) => (n, mkflag b (fun v st => (st, acc v)))) lib.
(** The end of the process with this status, or the values with which it goes on.
    (main.go:83-84, cmd/example-eventsocket-client/main.go:69-74) *)
Inductive read_flags (A : Type) := Exits (status : nat) | Goes (a : A).
Arguments Exits {A}. Arguments Goes {A}.
(** main.go:83-84.  The arguments that are left are not looked at, and neither is
    the error of ArgsFromEnv. *)
Definition main_flags (lib : library) (args : list bytes) (env : bytes -> option bytes) : read_flags settings :=
  match parse (own_flags ++ lib_flags lib) args defaults [] with
  | Misused => Exits 2
  | Helped => Exits 0
  | Parsed st given _ => Goes (fst (args_from_env (own_flags ++ lib_flags lib) given env st))
  end.

(** * The flag of the example client *)

(** flag.String("tcpinfo.eventsocket", ...), the only variable. (eventsocket/client.go:21) *)
Definition client_own : list (bytes * flag bytes) := [(str "tcpinfo.eventsocket", mkflag false (fun v _ => (v, true)))].
(** cmd/example-eventsocket-client/main.go:69-74; rtx.Must and log.Fatal exit with status 1. *)
Definition client_flags (lib : library) (args : list bytes) (env : bytes -> option bytes) : read_flags bytes :=
  match parse (client_own ++ lib_flags lib) args [] [] with
  | Misused => Exits 2
  | Helped => Exits 0
  | Parsed st given _ =>
    let '(name, ok) := args_from_env (client_own ++ lib_flags lib) given env st in
    if ok then match name with [] => Exits 1 | _ => Goes name end else Exits 1
  end.
