(** What counts as a significant change between two records, stated on the
    bytes a user sees (header state, TCP_INFO ranges, attribute values). *)
From Coq Require Import List NArith ZArith.
From Verif Require Import GoBase Netlink SpecNetlink.
Import ListNotations.

(** The value of attribute slot t of a record. *)
Definition slot (t : nat) (r : archival) : option bytes :=
  match nth t (ar_attrs r) None with Some s => Some (vis s) | None => None end.
Definition header (r : archival) : bytes := match ar_raw r with Some b => b | None => [] end.

(** The two ranges of TCP_INFO (slot 2) that matter: everything before
    LastDataSent (offset 44) and PMTU up to BusyTime (offsets 60 to 168). *)
Definition info_before_last (i : bytes) : bytes := at_ 0 44 i.
Definition info_counters (i : bytes) : bytes := at_ 60 108 i.

Definition same_info (i j : bytes) : Prop :=
  info_before_last i = info_before_last j /\ info_counters i = info_counters j.

(** Significant equality. *)
Definition no_significant_change (old new : archival) : Prop :=
  hdr_state (header old) = hdr_state (header new) /\
  (exists i j, slot 2 old = Some i /\ slot 2 new = Some j /\ same_info i j) /\
  length (ar_attrs old) = length (ar_attrs new) /\
  forall t, t <> 2 -> slot t old = slot t new.

(** How one attribute differs. *)
Inductive slot_change : option bytes -> option bytes -> change -> Prop :=
| sc_new b : slot_change None (Some b) NewAttribute
| sc_lost a : slot_change (Some a) None LostAttribute
| sc_len a b : length a <> length b -> slot_change (Some a) (Some b) AttributeLength
| sc_other a b : length a = length b -> a <> b -> slot_change (Some a) (Some b) Other.

(** The verdict, in the documented order of priority. *)
Inductive verdict (old new : archival) : change -> Prop :=
| v_state : hdr_state (header old) <> hdr_state (header new) -> verdict old new IDiagStateChange
| v_noinfo : hdr_state (header old) = hdr_state (header new) ->
    (slot 2 old = None \/ slot 2 new = None) -> verdict old new NoTCPInfo
| v_counter i j : hdr_state (header old) = hdr_state (header new) ->
    slot 2 old = Some i -> slot 2 new = Some j -> ~ same_info i j -> verdict old new StateOrCounterChange
| v_more i j : hdr_state (header old) = hdr_state (header new) ->
    slot 2 old = Some i -> slot 2 new = Some j -> same_info i j ->
    length (ar_attrs old) < length (ar_attrs new) -> verdict old new NewAttribute
| v_fewer i j : hdr_state (header old) = hdr_state (header new) ->
    slot 2 old = Some i -> slot 2 new = Some j -> same_info i j ->
    length (ar_attrs new) < length (ar_attrs old) -> verdict old new LostAttribute
| v_slot i j t c : hdr_state (header old) = hdr_state (header new) ->
    slot 2 old = Some i -> slot 2 new = Some j -> same_info i j ->
    length (ar_attrs old) = length (ar_attrs new) ->
    t <> 2 -> (forall u, u < t -> u <> 2 -> slot u old = slot u new) ->
    slot_change (slot t old) (slot t new) c -> verdict old new c
| v_same : no_significant_change old new -> verdict old new NoMajorChange.

(** Records on which Compare works on TCP_INFO proper: a full header, and
    TCP_INFO, if present, at least up to BusyTime. *)
Definition comparable (r : archival) : Prop :=
  72 <= length (header r) /\ forall i, slot 2 r = Some i -> 168 <= length i.
Definition carries_info (r : archival) : Prop :=
  72 <= length (header r) /\ exists i, slot 2 r = Some i /\ 168 <= length i.

Definition swap_change (c : change) : change :=
  match c with NewAttribute => LostAttribute | LostAttribute => NewAttribute | c => c end.
