(** The lines that are written, byte by byte, for readers other than this program:
    base64 as RFC 4648 has it, times as RFC 3339 has them, strings, and the members
    of the objects in their order. *)
From Coq Require Import Strings.String List NArith ZArith.
From Verif Require Import GoBase SpecJson SpecGrammar SpecPath Netlink Inetdiag EventServer.
Import ListNotations.
Local Open Scope list_scope.

(** * base64 *)
(** The last k bits of n, the highest first *)
Fixpoint bits (k : nat) (n : N) : list bool :=
  match k with O => [] | S k => N.testbit n (N.of_nat k) :: bits k n end.
(** The 64 characters *)
Definition sixth (c : byte) (v : N) : Prop :=
  (65 <= bval c <= 90 /\ v = bval c - 65 \/ 97 <= bval c <= 122 /\ v = bval c - 71 \/
   48 <= bval c <= 57 /\ v = bval c + 4 \/ bval c = 43 /\ v = 62 \/ bval c = 47 /\ v = 63)%N.
(** The bits of the bytes, then zeros up to a multiple of six; a character for six
    bits; then '=' up to a multiple of four characters.  Nothing else. *)
Definition strict64 (b x : bytes) : Prop :=
  exists cs vs q p, Forall2 sixth cs vs /\ concat (map (bits 6) vs) = concat (map (fun c => bits 8 (bval c)) b) ++ repeat false q /\ q < 6 /\
    x = cs ++ repeat x3d p /\ p < 4 /\ Nat.divide 4 (length x).

(** * Strings *)
(** Bytes that are not part of a character are U+FFFD, each. *)
Inductive repaired : bytes -> bytes -> Prop :=
| rep_end : repaired [] []
| rep_char r l s : scalar r -> repaired l s -> repaired (utf8_of r ++ l) (utf8_of r ++ s)
| rep_junk c l s : (forall r l', scalar r -> c :: l <> utf8_of r ++ l') -> repaired l s -> repaired (c :: l) (utf8_of 65533 ++ s).
(** Characters that are harmless in lines, in HTML and in JavaScript *)
Definition harmless (r : N) : Prop := scalar r /\ (32 <= r)%N /\ ~ In r [38; 60; 62; 8232; 8233]%N.
Definition harmless_text (x : bytes) : Prop := exists rs, Forall harmless rs /\ x = concat (map utf8_of rs).
Definition quoted (x : bytes) : bytes := str """" ++ x ++ str """".
(** A string literal for s *)
Definition string_text (s x : bytes) : Prop :=
  exists y s', x = quoted y /\ chars y /\ spells y s' /\ repaired s s' /\ harmless_text y.

(** * Numbers *)
Definition integer_text (z : Z) (x : bytes) : Prop :=
  (0 <= z)%Z /\ padded 10 1 x (Z.to_N z) \/ (z < 0)%Z /\ exists t, x = str "-" ++ t /\ padded 10 1 t (Z.to_N (- z)).

(** * Times *)
(** The digits of the nanoseconds after the point, without zeros at the end; no point
    if there are none *)
Definition fraction_text (ns : Z) (x : bytes) : Prop :=
  ns = 0%Z /\ x = [] \/
  exists d z, x = str "." ++ d /\ (forall l, d <> l ++ str "0") /\ numeral 10 (d ++ repeat x30 z) (Z.to_N ns) /\ length d + z = 9 /\ d <> [].
(** The minutes that local time is ahead of UTC *)
Definition offset_text (off : Z) (x : bytes) : Prop :=
  off = 0%Z /\ x = str "Z" \/
  exists s h m H M, (off = s * (h * 60 + m))%Z /\ (0 <= h <= 23)%Z /\ (0 <= m <= 59)%Z /\ off <> 0%Z /\
    padded 10 2 H (Z.to_N h) /\ padded 10 2 M (Z.to_N m) /\
    (s = 1%Z /\ x = str "+" ++ H ++ str ":" ++ M \/ s = (-1)%Z /\ x = str "-" ++ H ++ str ":" ++ M).
(** The instant t in nanoseconds of Unix time: local date and time of day, and the offset *)
Definition time_text (off t : Z) (x : bytes) : Prop :=
  exists n y m d hh mm ss ns Y M D h i s f z,
    (t + off * 60000000000 = (((n * 24 + hh) * 60 + mm) * 60 + ss) * 1000000000 + ns)%Z /\ day_is n (y, m, d) /\
    (0 <= hh <= 23)%Z /\ (0 <= mm <= 59)%Z /\ (0 <= ss <= 59)%Z /\ (0 <= ns <= 999999999)%Z /\ (0 <= y <= 9999)%Z /\
    padded 10 4 Y (Z.to_N y) /\ padded 10 2 M (Z.to_N m) /\ padded 10 2 D (Z.to_N d) /\
    padded 10 2 h (Z.to_N hh) /\ padded 10 2 i (Z.to_N mm) /\ padded 10 2 s (Z.to_N ss) /\
    fraction_text ns f /\ offset_text off z /\
    x = quoted (Y ++ str "-" ++ M ++ str "-" ++ D ++ str "T" ++ h ++ str ":" ++ i ++ str ":" ++ s ++ f ++ z).

(** * Objects and arrays *)
Fixpoint commas (l : list bytes) : bytes :=
  match l with [] => [] | [x] => x | x :: r => x ++ str "," ++ commas r end.
Definition member (name : string) (x : bytes) : bytes := quoted (str name) ++ str ":" ++ x.
Definition object (l : list bytes) : bytes := str "{" ++ commas l ++ str "}".
Definition array (l : list bytes) : bytes := str "[" ++ commas l ++ str "]".
(** A member that may be left out *)
Definition optional (name : string) (out : Prop) (P : bytes -> Prop) (l : list bytes) : Prop :=
  out /\ l = [] \/ ~ out /\ exists x, P x /\ l = [member name x].

(** * Records *)
Definition bytes_text (b x : bytes) : Prop := exists y, strict64 b y /\ x = quoted y.
Definition slot_text (a : option gslice) (x : bytes) : Prop :=
  match a with None => x = str "null" | Some s => bytes_text (vis s) x end.
Section Zone.
  (** The minutes that the clocks are ahead of UTC at an instant *)
  Variable zone : Z -> Z.
  Definition metadata_text (md : metadata) (x : bytes) : Prop :=
    exists u n t, string_text (md_uuid md) u /\ integer_text (md_seq md) n /\ time_text (zone (md_start md)) (md_start md) t /\
      x = object [member "UUID" u; member "Sequence" n; member "StartTime" t].
  Definition record_text (r : archival) (x : bytes) : Prop :=
    exists t raw attrs meta, time_text (zone (ar_time r)) (ar_time r) t /\
      optional "RawIDM" (ar_raw r = None \/ ar_raw r = Some []) (fun y => exists b, ar_raw r = Some b /\ bytes_text b y) raw /\
      optional "Attributes" (ar_attrs r = []) (fun y => exists l, Forall2 slot_text (ar_attrs r) l /\ y = array l) attrs /\
      optional "Metadata" (ar_meta r = None) (fun y => exists md, ar_meta r = Some md /\ metadata_text md y) meta /\
      x = object ([member "Timestamp" t] ++ raw ++ attrs ++ meta).

(** * Events *)
  Definition sockid_text (o : option sockid) (x : bytes) : Prop :=
    match o with
    | None => x = str "null"
    | Some id => exists sp dp s d i k, integer_text (Z.of_N (sid_sport id)) sp /\ integer_text (Z.of_N (sid_dport id)) dp /\
        string_text (sid_src id) s /\ string_text (sid_dst id) d /\ integer_text (Z.of_N (sid_if id)) i /\ integer_text (sid_cookie id) k /\
        x = object [member "SPort" sp; member "DPort" dp; member "SrcIP" s; member "DstIP" d; member "Interface" i; member "Cookie" k]
    end.
  Definition event_line_text (e : flow_event) (x : bytes) : Prop :=
    exists n t u id, integer_text (fe_event e) n /\ time_text (zone (fe_time e)) (fe_time e) t /\ string_text (fe_uuid e) u /\ sockid_text (fe_id e) id /\
      x = object [member "Event" n; member "Timestamp" t; member "UUID" u; member "ID" id].
End Zone.

(** * What a reader of such a line is to find *)
(** The same, but for junk in strings, for empty []byte and for memory beyond the
    end of slices *)
Definition metadata_as (md md' : metadata) : Prop :=
  repaired (md_uuid md) (md_uuid md') /\ md_seq md' = md_seq md /\ md_start md' = md_start md.
Definition record_as (r r' : archival) : Prop :=
  ar_time r' = ar_time r /\ (ar_raw r' = ar_raw r \/ ar_raw r = Some [] /\ ar_raw r' = None) /\
  map (option_map vis) (ar_attrs r') = map (option_map vis) (ar_attrs r) /\
  match ar_meta r, ar_meta r' with None, None => True | Some md, Some md' => metadata_as md md' | _, _ => False end.
Definition sockid_as (o o' : sockid) : Prop :=
  sid_sport o' = sid_sport o /\ sid_dport o' = sid_dport o /\ repaired (sid_src o) (sid_src o') /\ repaired (sid_dst o) (sid_dst o') /\
  sid_if o' = sid_if o /\ sid_cookie o' = sid_cookie o.
Definition event_as (e e' : flow_event) : Prop :=
  fe_event e' = fe_event e /\ fe_time e' = fe_time e /\ repaired (fe_uuid e) (fe_uuid e') /\
  match fe_id e, fe_id e' with None, None => True | Some o, Some o' => sockid_as o o' | _, _ => False end.
(** Numbers that their types can hold *)
Definition int64 (z : Z) : Prop := (-9223372036854775808 <= z <= 9223372036854775807)%Z.
Definition record_numbers (r : archival) : Prop := forall md, ar_meta r = Some md -> int64 (md_seq md).
Definition event_numbers (e : flow_event) : Prop :=
  int64 (fe_event e) /\ forall o, fe_id e = Some o ->
    (sid_sport o < 65536)%N /\ (sid_dport o < 65536)%N /\ (sid_if o < 4294967296)%N /\ int64 (sid_cookie o).
