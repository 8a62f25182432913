(** Specification of what a JSON text says about a record or an event: base64
    (RFC 4648), times (RFC 3339), and the members of the objects.  Independent of
    the order in which the members are read. *)
From Coq Require Import Strings.String List NArith ZArith Bool.
From Verif Require Import GoBase GoTime TimeFacts Json SpecJson SpecGrammar SpecShuffle Netlink Inetdiag EventServer.
Import ListNotations.
Local Open Scope list_scope.

(** ** base64 *)
Definition sextet (c : byte) (i : N) : Prop :=
  nth_error (str "ABCDEFGHIJKLMNOPQRSTUVWXYZabcdefghijklmnopqrstuvwxyz0123456789+/") (N.to_nat i) = Some c.
(** Groups of four characters for three bytes; the last one may be padded, and the
    bits that are left over do not matter. *)
Inductive groups : bytes -> bytes -> Prop :=
| groups_end : groups [] []
| groups_pad2 a b i j : sextet a i -> sextet b j -> groups [a; b; x3d; x3d] [byte_of ((i * 64 + j) / 16)]
| groups_pad1 a b c i j k : sextet a i -> sextet b j -> sextet c k ->
    groups [a; b; c; x3d] [byte_of ((i * 4096 + j * 64 + k) / 1024); byte_of ((i * 4096 + j * 64 + k) / 4)]
| groups_more a b c d i j k m l s : sextet a i -> sextet b j -> sextet c k -> sextet d m -> groups l s ->
    groups (a :: b :: c :: d :: l) (byte_of ((i * 262144 + j * 4096 + k * 64 + m) / 65536) :: byte_of ((i * 262144 + j * 4096 + k * 64 + m) / 256) ::
                                    byte_of (i * 262144 + j * 4096 + k * 64 + m) :: s).
(** Line ends are allowed anywhere. *)
Inductive unbroken : bytes -> bytes -> Prop :=
| unbroken_end : unbroken [] []
| unbroken_eol c l l' : c = x0a \/ c = x0d -> unbroken l l' -> unbroken (c :: l) l'
| unbroken_char c l l' : c <> x0a -> c <> x0d -> unbroken l l' -> unbroken (c :: l) (c :: l').
Definition base64 (s b : bytes) : Prop := exists s', unbroken s s' /\ groups s' b.

(** ** Times *)
Definition two (n : Z) : bytes := dec_pad 2 (Z.to_N n).
(** The nanoseconds of the digits after the point; digits after the ninth do not matter *)
Definition subsecond (f : bytes) (ns : Z) : Prop :=
  (f = [] /\ ns = 0%Z) \/
  exists d, f = x2e :: d /\ d <> [] /\ Forall digit d /\ firstn 9 (d ++ repeat x30 9) = dec_pad 9 (Z.to_N ns) /\ (0 <= ns < 1000000000)%Z.
(** The minutes that local time is ahead of UTC *)
Definition offset (z : bytes) (off : Z) : Prop :=
  (z = str "Z" /\ off = 0%Z) \/
  exists h m, (0 <= h <= 23)%Z /\ (0 <= m <= 59)%Z /\
    ((z = str "+" ++ two h ++ str ":" ++ two m /\ off = h * 60 + m)%Z \/ (z = str "-" ++ two h ++ str ":" ++ two m /\ off = - (h * 60 + m))%Z).
Definition stamp (raw : bytes) (t : Z) : Prop :=
  exists y m d hh mm ss f ns z off,
    raw = dec_pad 4 (Z.to_N y) ++ str "-" ++ two m ++ str "-" ++ two d ++ str "T" ++ two hh ++ str ":" ++ two mm ++ str ":" ++ two ss ++ f ++ z /\
    (0 <= y <= 9999)%Z /\ valid_date y m d /\ (0 <= hh <= 23)%Z /\ (0 <= mm <= 59)%Z /\ (0 <= ss <= 59)%Z /\ subsecond f ns /\ offset z off /\
    (* 719162 days from January 1 of year 1 to January 1, 1970 *)
    (t = (((day_number y m d - 719162) * 24 + hh) * 60 + mm - off) * 60000000000 + ss * 1000000000 + ns)%Z.
(** What Go 1.20 takes for a time besides: hours of one digit, a comma for the point, and
    offsets up to 99 hours and 99 minutes *)
Definition lax_subsecond (f : bytes) (ns : Z) : Prop := subsecond f ns \/ exists d, f = x2c :: d /\ subsecond (x2e :: d) ns.
Definition lax_offset (z : bytes) (off : Z) : Prop :=
  (z = str "Z" /\ off = 0%Z) \/
  exists h m, (0 <= h <= 99)%Z /\ (0 <= m <= 99)%Z /\
    ((z = str "+" ++ two h ++ str ":" ++ two m /\ off = h * 60 + m)%Z \/ (z = str "-" ++ two h ++ str ":" ++ two m /\ off = - (h * 60 + m))%Z).
Definition lax_stamp (raw : bytes) (t : Z) : Prop :=
  exists y m d hour hh mm ss f ns z off,
    raw = dec_pad 4 (Z.to_N y) ++ str "-" ++ two m ++ str "-" ++ two d ++ str "T" ++ hour ++ str ":" ++ two mm ++ str ":" ++ two ss ++ f ++ z /\
    (0 <= y <= 9999)%Z /\ valid_date y m d /\ (hour = two hh \/ (hh <= 9)%Z /\ hour = dec_pad 1 (Z.to_N hh)) /\
    (0 <= hh <= 23)%Z /\ (0 <= mm <= 59)%Z /\ (0 <= ss <= 59)%Z /\ lax_subsecond f ns /\ lax_offset z off /\
    (t = (((day_number y m d - 719162) * 24 + hh) * 60 + mm - off) * 60000000000 + ss * 1000000000 + ns)%Z.

(** ** Members *)
(** The name of a field, in upper or lower case; the long s and the Kelvin sign count
    as s and k. *)
Inductive alike : bytes -> bytes -> Prop :=
| alike_end : alike [] []
| alike_same c f k : alike f k -> alike (c :: f) (c :: k)
| alike_up c f k : (97 <= bval c <= 122)%N -> alike f k -> alike (c :: f) (byte_of (bval c - 32) :: k)
| alike_low c f k : (65 <= bval c <= 90)%N -> alike f k -> alike (c :: f) (byte_of (bval c + 32) :: k)
| alike_long_s c f k : c = x73 \/ c = x53 -> alike f k -> alike (c :: f) (xc5 :: xbf :: k)
| alike_kelvin c f k : c = x6b \/ c = x4b -> alike f k -> alike (c :: f) (xe2 :: x84 :: xaa :: k).
(** The literal k is the name of the field f. *)
Definition called (f k : bytes) : Prop := exists s, spells k s /\ alike f s.
(** What the object says about a field: nothing, or null, which leave the zero
    value, or a value. *)
Definition says {A} (l : list (bytes * json)) (f : bytes) (R : json -> A -> Prop) (zero x : A) : Prop :=
  (x = zero /\ forall k v, In (k, v) l -> ~ called f k) \/
  exists k v, In (k, v) l /\ called f k /\ ((v = JNull /\ x = zero) \/ R v x).

Definition int_of (v : json) (z : Z) : Prop :=
  exists raw, v = JNum raw /\ signed_text raw z /\ (-9223372036854775808 <= z <= 9223372036854775807)%Z.
Definition uint_of (max : N) (v : json) (n : N) : Prop := exists raw, v = JNum raw /\ unsigned_text raw n /\ (n <= max)%N.
Definition string_of (v : json) (s : bytes) : Prop := exists raw, v = JStr raw /\ spells raw s.
(** The instants that a literal can stand for *)
Definition time_of (v : json) (t : Z) : Prop := exists raw, v = JStr raw /\ lax_stamp raw t.
(** An element of an array of numbers; null is 0. *)
Definition octet_of (v : json) (c : byte) : Prop := (v = JNull /\ c = x00) \/ exists n, uint_of 255 v n /\ c = byte_of n.
Definition bytes_of (v : json) (o : option bytes) : Prop :=
  exists b, o = Some b /\ ((exists raw s, v = JStr raw /\ spells raw s /\ base64 s b) \/ exists l, v = JArr l /\ Forall2 octet_of l b).
Definition slot_of (v : json) (a : option gslice) : Prop :=
  (v = JNull /\ a = None) \/ exists b, bytes_of v (Some b) /\ a = Some (mkslice b []).
Definition slots_of (v : json) (a : list (option gslice)) : Prop := exists l, v = JArr l /\ Forall2 slot_of l a.

(** ** The structs *)
Definition metadata_of (v : json) (o : option metadata) : Prop :=
  exists l md, v = JObj l /\ o = Some md /\
    says l (str "UUID") string_of [] (md_uuid md) /\ says l (str "Sequence") int_of 0%Z (md_seq md) /\
    says l (str "StartTime") time_of zero_time (md_start md).
Definition record_of (v : json) (r : archival) : Prop :=
  (v = JNull /\ r = mkar zero_time None [] None) \/
  exists l, v = JObj l /\
    says l (str "Timestamp") time_of zero_time (ar_time r) /\ says l (str "RawIDM") bytes_of None (ar_raw r) /\
    says l (str "Attributes") slots_of [] (ar_attrs r) /\ says l (str "Metadata") metadata_of None (ar_meta r).
Definition sockid_of (v : json) (o : option sockid) : Prop :=
  exists l id, v = JObj l /\ o = Some id /\
    says l (str "SPort") (uint_of 65535) 0%N (sid_sport id) /\ says l (str "DPort") (uint_of 65535) 0%N (sid_dport id) /\
    says l (str "SrcIP") string_of [] (sid_src id) /\ says l (str "DstIP") string_of [] (sid_dst id) /\
    says l (str "Interface") (uint_of 4294967295) 0%N (sid_if id) /\ says l (str "Cookie") int_of 0%Z (sid_cookie id).
Definition event_of_json (v : json) (e : flow_event) : Prop :=
  (v = JNull /\ e = mkfe 0 zero_time [] None) \/
  exists l, v = JObj l /\
    says l (str "Event") int_of 0%Z (fe_event e) /\ says l (str "Timestamp") time_of zero_time (fe_time e) /\
    says l (str "UUID") string_of [] (fe_uuid e) /\ says l (str "ID") sockid_of None (fe_id e).

(** ** No field is named twice. *)
Definition once (fields : list bytes) (l : list (bytes * json)) : Prop :=
  Forall (fun f => ForallOrdPairs (fun a b => ~ (called f (fst a) /\ called f (fst b))) l) fields.
Definition clear_record (j : json) : Prop :=
  forall l, j = JObj l -> once [str "Timestamp"; str "RawIDM"; str "Attributes"; str "Metadata"] l /\
    forall k l', In (k, JObj l') l -> called (str "Metadata") k -> once [str "UUID"; str "Sequence"; str "StartTime"] l'.
Definition clear_event (j : json) : Prop :=
  forall l, j = JObj l -> once [str "Event"; str "Timestamp"; str "UUID"; str "ID"] l /\
    forall k l', In (k, JObj l') l -> called (str "ID") k -> once [str "SPort"; str "DPort"; str "SrcIP"; str "DstIP"; str "Interface"; str "Cookie"] l'.
