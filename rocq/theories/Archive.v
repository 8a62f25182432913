(** Model of json.Marshal and json.Unmarshal on netlink.ArchivalRecord: the
    lines that the saver writes (saver/saver.go:79 and 153) and that the archive
    reader reads (netlink/archival-record.go:368-369). *)
From Coq Require Import Strings.String List NArith ZArith Bool.
From Verif Require Import GoBase Netlink Base64 GoTime Rfc3339 Json.
Import ListNotations.
Local Open Scope list_scope.

(** ** Encoding *)
Section Encode.
  (** The location of each time: minutes ahead of UTC at an instant. *)
  Variable zone : Z -> Z.

  (** Time.MarshalJSON *)
  Definition time_json (t : Z) : option json :=
    match marshal_time (zone t) t with Some s => Some (JStr s) | None => None end.
  (** encodeByteSlice: null for nil *)
  Definition bytes_json (b : option bytes) : json :=
    match b with Some b => JStr (b64_encode b) | None => JNull end.
  (** netlink/archival-record.go:29-33 type Metadata *)
  Definition metadata_json (md : metadata) : option json :=
    match time_json (md_start md) with
    | Some t => Some (JObj [(str "UUID", JStr (quote (md_uuid md))); (str "Sequence", JNum (decZ (md_seq md))); (str "StartTime", t)])
    | None => None
    end.
  (** netlink/archival-record.go:36-50 type ArchivalRecord: omitempty leaves out
      slices without elements and nil pointers; a struct such as time.Time is
      never left out *)
  Definition archival_json (r : archival) : option json :=
    match time_json (ar_time r), match ar_meta r with Some md => match metadata_json md with Some m => Some [(str "Metadata", m)] | None => None end
                                                    | None => Some [] end with
    | Some t, Some m =>
        Some (JObj ([(str "Timestamp", t)]
                    ++ match ar_raw r with
                       | Some (c :: b) => [(str "RawIDM", bytes_json (Some (c :: b)))]
                       | _ => []
                       end
                    ++ match ar_attrs r with
                       | [] => []
                       | l => [(str "Attributes", JArr (map (fun a => bytes_json (option_map vis a)) l))]
                       end
                    ++ m))
    | _, _ => None
    end.
  (** json.Marshal: the text, None for an error *)
  Definition marshal (r : archival) : option bytes :=
    match archival_json r with Some j => Some (render j) | None => None end.

  (** saver/saver.go:79-80 and 153-154: the error is ignored; b is then nil *)
  Definition json_line (r : archival) : bytes := match marshal r with Some b => b | None => [] end.
  (** saver/saver.go:144-154 writeHeader *)
  Definition header_line (md : metadata) : bytes := json_line (mkar zero_time None [] (Some md)).
End Encode.

(** ** Decoding.  [None] is an error; the decoder goes on after some of them,
    but json.Unmarshal returns an error in the end. *)
(** Time.UnmarshalJSON: null leaves the time as it is (netlink/archival-record.go:39 and 369) *)
Definition read_time (v : json) (old : Z) : option Z :=
  match v with
  | JNull => Some old
  | JStr raw => unmarshal_time raw
  | _ => None
  end.
(** decodeState.array into a []byte: an array of numbers up to 255; null leaves the
    zero of the new element. (netlink/archival-record.go:43, 45 and 369) *)
Fixpoint read_octets (l : list json) : option bytes :=
  match l with
  | [] => Some []
  | v :: r =>
      match (match v with JNull => Some 0%Z | JNum raw => parse_unsigned 255 raw | _ => None end), read_octets r with
      | Some z, Some b => Some (byte_of (Z.to_N z) :: b)
      | _, _ => None
      end
  end.
(** decodeState.literalStore and decodeState.array into a []byte.  Simplifications: the
    array is not read over the bytes of an earlier member of the same name; and the
    slice has no spare capacity, where Go leaves some zeros after its end.
    (netlink/archival-record.go:43 and 369) *)
Definition read_bytes (v : json) : option (option bytes) :=
  match v with
  | JNull => Some None
  | JStr raw => match b64_decode (unquote raw) with Some b => Some (Some b) | None => None end
  | JArr l => match read_octets l with Some b => Some (Some b) | None => None end
  | _ => None
  end.
(** decodeState.array into [][]byte (netlink/archival-record.go:45 and 369) *)
Fixpoint read_all_bytes (l : list json) : option (list (option gslice)) :=
  match l with
  | [] => Some []
  | v :: r =>
      match read_bytes v, read_all_bytes r with
      | Some b, Some bs => Some (option_map (fun b => mkslice b []) b :: bs)
      | _, _ => None
      end
  end.
(** The same for a value that may be null, as for the field Attributes
    (netlink/archival-record.go:45) *)
Definition read_attrs (v : json) : option (list (option gslice)) :=
  match v with
  | JNull => Some []
  | JArr l => read_all_bytes l
  | _ => None
  end.
(** decodeState.literalStore into a string (netlink/archival-record.go:30 UUID) *)
Definition read_string (v : json) (old : bytes) : option bytes :=
  match v with
  | JNull => Some old
  | JStr raw => Some (unquote raw)
  | _ => None
  end.
(** decodeState.literalStore into a signed or an unsigned integer (netlink/archival-record.go:31 and 369) *)
Definition read_int (lo hi : Z) (v : json) (old : Z) : option Z :=
  match v with
  | JNull => Some old
  | JNum raw => parse_int lo hi raw
  | _ => None
  end.
(** The same for an unsigned integer of at most hi (the ports and the interface of
    inetdiag/structs.go:139-146) *)
Definition read_uint (hi : Z) (v : json) (old : N) : option N :=
  match v with
  | JNull => Some old
  | JNum raw => match parse_unsigned hi raw with Some z => Some (Z.to_N z) | None => None end
  | _ => None
  end.
(** math.MinInt64, the bound for a Go int (netlink/archival-record.go:31 Sequence) *)
Definition min_int64 : Z := -9223372036854775808.
(** math.MaxInt64 (netlink/archival-record.go:31) *)
Definition max_int64 : Z := 9223372036854775807.

(** decodeState.object into a struct: the members in order; unknown names are
    skipped (by [field]) (netlink/archival-record.go:28-50 and 369) *)
Fixpoint read_fields {A} (field : bytes -> json -> A -> option A) (l : list (bytes * json)) (a : A) : option A :=
  match l with
  | [] => Some a
  | (k, v) :: r => match field (unquote k) v a with Some a' => read_fields field r a' | None => None end
  end.

(** One member of the object for a Metadata, netlink/archival-record.go:29-33 *)
Definition metadata_field (k : bytes) (v : json) (md : metadata) : option metadata :=
  if same_key (str "UUID") k then
    match read_string v (md_uuid md) with Some u => Some (mkmeta u (md_seq md) (md_start md)) | None => None end
  else if same_key (str "Sequence") k then
    match read_int min_int64 max_int64 v (md_seq md) with Some n => Some (mkmeta (md_uuid md) n (md_start md)) | None => None end
  else if same_key (str "StartTime") k then
    match read_time v (md_start md) with Some t => Some (mkmeta (md_uuid md) (md_seq md) t) | None => None end
  else Some md.
(** Into a *Metadata: null gives nil, an object is read into the old struct if
    there is one (netlink/archival-record.go:49 and 369) *)
Definition read_metadata (v : json) (old : option metadata) : option (option metadata) :=
  match v with
  | JNull => Some None
  | JObj l =>
      match read_fields metadata_field l (match old with Some md => md | None => mkmeta [] 0 zero_time end) with
      | Some md => Some (Some md)
      | None => None
      end
  | _ => None
  end.

(** One member of the object for an ArchivalRecord, netlink/archival-record.go:36-50 *)
Definition archival_field (k : bytes) (v : json) (r : archival) : option archival :=
  if same_key (str "Timestamp") k then
    match read_time v (ar_time r) with Some t => Some (mkar t (ar_raw r) (ar_attrs r) (ar_meta r)) | None => None end
  else if same_key (str "RawIDM") k then
    match read_bytes v with Some b => Some (mkar (ar_time r) b (ar_attrs r) (ar_meta r)) | None => None end
  else if same_key (str "Attributes") k then
    match read_attrs v with Some l => Some (mkar (ar_time r) (ar_raw r) l (ar_meta r)) | None => None end
  else if same_key (str "Metadata") k then
    match read_metadata v (ar_meta r) with Some m => Some (mkar (ar_time r) (ar_raw r) (ar_attrs r) m) | None => None end
  else Some r.

(** netlink/archival-record.go:368 record := ArchivalRecord{} *)
Definition zero_archival : archival := mkar zero_time None [] None.
(** json.Unmarshal(buf, &record), netlink/archival-record.go:369 *)
Definition unmarshal (buf : bytes) : outcome archival :=
  match parse buf with
  | Some JNull => Ret zero_archival
  | Some (JObj l) => match read_fields archival_field l zero_archival with Some r => Ret r | None => Fail ErrJSON end
  | _ => Fail ErrJSON
  end.
