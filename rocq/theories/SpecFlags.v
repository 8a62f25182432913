(** What a command line and an environment ask for, independently of how flags
    are parsed. *)
From Coq Require Import Strings.String List NArith ZArith.
From Verif Require Import GoBase SpecConfig Flags.
Import ListNotations.
Local Open Scope list_scope.

(** * Texts of values *)

(** Digits, each of which may have an underscore before it, that continue a
    number whose digits so far mean [n]; the whole number means [m]. *)
Inductive continued (base : N) : N -> bytes -> N -> Prop :=
| co_end n : continued base n [] n
| co_digit n c d r m : hex_digit_value c d -> (d < base)%N -> continued base (base * n + d) r m -> continued base n (c :: r) m
| co_under n c d r m : hex_digit_value c d -> (d < base)%N -> continued base (base * n + d) r m -> continued base n (x5f :: c :: r) m.
(** An integer literal of Go without sign: decimal, octal, or with a prefix. *)
Inductive literal : bytes -> N -> Prop :=
| li_decimal c d r m : decimal_digit c -> c <> x30 -> d = (bval c - 48)%N -> continued 10 d r m -> literal (c :: r) m
| li_octal r m : continued 8 0 r m -> literal (x30 :: r) m
| li_prefix p base r m : In (p, base) [(x62, 2); (x42, 2); (x6f, 8); (x4f, 8); (x78, 16); (x58, 16)]%N -> r <> [] ->
    continued base 0 r m -> literal (x30 :: p :: r) m.
Definition integer_text (t : bytes) (z : Z) : Prop :=
  exists sgn u m, t = sgn ++ u /\ literal u m /\
    ((sgn = [] \/ sgn = [x2b]) /\ z = Z.of_N m \/ sgn = [x2d] /\ z = (- Z.of_N m)%Z).
Definition int64_text (t : bytes) (z : Z) : Prop :=
  integer_text t z /\ (-9223372036854775808 <= z <= 9223372036854775807)%Z.
Definition bool_text (t : bytes) (b : bool) : Prop :=
  In (t, b) [(str "1", true); (str "t", true); (str "T", true); (str "true", true); (str "TRUE", true); (str "True", true);
             (str "0", false); (str "f", false); (str "F", false); (str "false", false); (str "FALSE", false); (str "False", false)].
Definition method_text (t : bytes) (m : method) : Prop := In (t, m) [(str "none", MNone); (str "netblock", MNetblock)].
(** The parts of a text between its commas. *)
Fixpoint joined (ws : list bytes) : bytes :=
  match ws with [] => [] | [w] => w | w :: ws => w ++ x2c :: joined ws end.
Definition comma_list (t : bytes) (ws : list bytes) : Prop :=
  ws <> [] /\ joined ws = t /\ Forall (fun w => ~ In x2c w) ws.

(** * Command lines *)

(** One word for a flag, with its value if it is written after '='. *)
Definition written (w n : bytes) (v : option bytes) : Prop :=
  exists dashes, (dashes = str "-" \/ dashes = str "--") /\ n <> [] /\ (forall t, n <> x2d :: t) /\ ~ In x3d n /\
    w = dashes ++ n ++ match v with None => [] | Some v => x3d :: v end.
(** Words that spell flags with their values, [known n b]: there is a flag n, and b
    says whether it may stand alone. *)
Inductive spells (known : bytes -> bool -> Prop) : list bytes -> list (bytes * bytes) -> Prop :=
| sp_nil : spells known [] []
| sp_value w n v b args occ : written w n (Some v) -> known n b -> spells known args occ -> spells known (w :: args) ((n, v) :: occ)
| sp_next w n v args occ : written w n None -> known n false -> spells known args occ -> spells known (w :: v :: args) ((n, v) :: occ)
| sp_alone w n args occ : written w n None -> known n true -> spells known args occ -> spells known (w :: args) ((n, str "true") :: occ).
(** Not the form of a flag: no '-' at the beginning, or nothing after it. *)
Definition plain (w : bytes) : Prop := forall t, t <> [] -> w <> x2d :: t.
(** What may come after the flags. *)
Definition ends (tail : list bytes) : Prop :=
  tail = [] \/ exists w r, tail = w :: r /\ (w = str "--" \/ plain w).

(** * The flags of main.go *)

(** The name of a flag, the variable for it, and whether the flag may stand alone. *)
Definition own : list (bytes * (bytes * bool)) :=
  [(str "reps", (str "REPS", false)); (str "trace", (str "TRACE", true)); (str "output", (str "OUTPUT", false));
   (str "exclude-srcport", (str "EXCLUDE_SRCPORT", false)); (str "exclude-dstip", (str "EXCLUDE_DSTIP", false));
   (str "tcpinfo.eventsocket", (str "TCPINFO_EVENTSOCKET", false)); (str "anonymize.ip", (str "ANONYMIZE_IP", false))].
(** No name is defined twice (package flag panics otherwise). *)
Definition distinct (lib : library) : Prop := NoDup (map fst own ++ map fst lib).
Definition known (lib : library) (n : bytes) (b : bool) : Prop :=
  (exists var, In (n, (var, b)) own) \/ exists acc, In (n, (b, acc)) lib.
(** The value is one the flag accepts. *)
Definition acceptable (lib : library) (nv : bytes * bytes) : Prop :=
  (fst nv = str "reps" -> exists z, int64_text (snd nv) z) /\
  (fst nv = str "trace" -> exists b, bool_text (snd nv) b) /\
  (fst nv = str "anonymize.ip" -> exists m, method_text (snd nv) m) /\
  (forall b acc, In (fst nv, (b, acc)) lib -> acc (snd nv) = true).
(** A command line that main accepts, and the flags it gives. *)
Definition command (lib : library) (args : list bytes) (occ : list (bytes * bytes)) : Prop :=
  exists pre tail, args = pre ++ tail /\ spells (known lib) pre occ /\ ends tail /\ Forall (acceptable lib) occ.
(** It asks for help. *)
Definition asks_help (lib : library) (args : list bytes) : Prop :=
  exists pre w tail occ n v, args = pre ++ w :: tail /\ spells (known lib) pre occ /\ Forall (acceptable lib) occ /\
    written w n v /\ (n = str "h" \/ n = str "help") /\ forall b, ~ known lib n b.

(** The values given for a flag, in order. *)
Inductive values_of (n : bytes) : list (bytes * bytes) -> list bytes -> Prop :=
| vo_nil : values_of n [] []
| vo_this v occ vs : values_of n occ vs -> values_of n ((n, v) :: occ) (v :: vs)
| vo_other m v occ vs : m <> n -> values_of n occ vs -> values_of n ((m, v) :: occ) vs.
(** The texts for a flag: those given, or else the variable; [sure]: they were
    given, so that they are acceptable. *)
Definition texts (occ : list (bytes * bytes)) (env : bytes -> option bytes) (n var : bytes) (sure : bool) (ts : list bytes) : Prop :=
  exists vs, values_of n occ vs /\
    (vs <> [] /\ sure = true /\ ts = vs \/
     vs = [] /\ sure = false /\ ts = match env var with Some v => [v] | None => [] end).
(** The meaning of the last text; nothing if there is no text; [otherwise] says
    what happens to a text without meaning. *)
Definition meant {A} (ts : list bytes) (nothing : A) (means : bytes -> A -> Prop) (otherwise : bool -> bytes -> A -> Prop) (sure : bool) (a : A) : Prop :=
  ts = [] /\ a = nothing \/
  exists before t, ts = before ++ [t] /\ (means t a \/ (forall a', ~ means t a') /\ otherwise sure t a).
(** Only a variable of the environment can have a text without meaning. *)
Definition bad_int (sure : bool) (t : bytes) (z : Z) : Prop :=
  sure = false /\ ((z = 9223372036854775807 \/ z = -9223372036854775808 \/ z = 0)%Z) /\
  forall y, integer_text t y -> (y > 9223372036854775807 /\ z = 9223372036854775807 \/ y < -9223372036854775808 /\ z = -9223372036854775808)%Z.
Definition bad_bool (sure : bool) (t : bytes) (b : bool) : Prop := sure = false /\ b = false.
Definition bad_method (sure : bool) (t : bytes) (m : method) : Prop := sure = false /\ m = MNone.
Definition never {A} (sure : bool) (t : bytes) (a : A) : Prop := False.

(** What the flags and the environment ask for. *)
Record asked (occ : list (bytes * bytes)) (env : bytes -> option bytes) (st : settings) : Prop := {
  asked_reps : exists su ts, texts occ env (str "reps") (str "REPS") su ts /\ meant ts 0%Z int64_text bad_int su (f_reps st);
  asked_trace : exists su ts, texts occ env (str "trace") (str "TRACE") su ts /\ meant ts false bool_text bad_bool su (f_trace st);
  asked_output : exists su ts, texts occ env (str "output") (str "OUTPUT") su ts /\ meant ts [] eq never su (f_output st);
  asked_ports : exists su ts wss, texts occ env (str "exclude-srcport") (str "EXCLUDE_SRCPORT") su ts /\
    Forall2 comma_list ts wss /\ f_ports st = concat wss;
  asked_ips : exists su ts wss, texts occ env (str "exclude-dstip") (str "EXCLUDE_DSTIP") su ts /\
    Forall2 comma_list ts wss /\ f_ips st = concat wss;
  asked_socket : exists su ts, texts occ env (str "tcpinfo.eventsocket") (str "TCPINFO_EVENTSOCKET") su ts /\ meant ts [] eq never su (f_socket st);
  asked_anon : exists su ts, texts occ env (str "anonymize.ip") (str "ANONYMIZE_IP") su ts /\ meant ts MNone method_text bad_method su (f_anon st) }.

(** * The example client *)

Definition client_known (lib : library) (n : bytes) (b : bool) : Prop :=
  n = str "tcpinfo.eventsocket" /\ b = false \/ exists acc, In (n, (b, acc)) lib.
Definition lib_accepts (lib : library) (nv : bytes * bytes) : Prop :=
  forall b acc, In (fst nv, (b, acc)) lib -> acc (snd nv) = true.
(** The variable for a flag: upper case, '_' for what is neither letter nor digit,
    and before a digit at the beginning. *)
Definition var_char (c c' : byte) : Prop :=
  (decimal_digit c \/ (65 <= bval c <= 90)%N) /\ c' = c \/
  (97 <= bval c <= 122)%N /\ bval c' = (bval c - 32)%N \/
  ~ (decimal_digit c \/ (65 <= bval c <= 90)%N \/ (97 <= bval c <= 122)%N) /\ c' = x5f.
Definition variable (n var : bytes) : Prop :=
  exists t, Forall2 var_char n t /\
    ((exists c r, n = c :: r /\ decimal_digit c) /\ var = x5f :: t \/ ~ (exists c r, n = c :: r /\ decimal_digit c) /\ var = t).
Definition client_distinct (lib : library) : Prop := NoDup (str "tcpinfo.eventsocket" :: map fst lib).
(** Every variable for a flag that was not given has a value the flag accepts. *)
Definition good_variables (lib : library) (env : bytes -> option bytes) (occ : list (bytes * bytes)) : Prop :=
  forall n b acc var v, In (n, (b, acc)) lib -> ~ In n (map fst occ) -> variable n var -> env var = Some v -> acc v = true.
Definition client_command (lib : library) (args : list bytes) (occ : list (bytes * bytes)) : Prop :=
  exists pre tail, args = pre ++ tail /\ spells (client_known lib) pre occ /\ ends tail /\ Forall (lib_accepts lib) occ.
