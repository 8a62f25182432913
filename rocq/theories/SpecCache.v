(** What a user of the cache can expect, stated on the history of calls. *)
From stdpp Require Import gmap.
From Coq Require Import NArith ZArith.
From Verif Require Import GoBase Netlink SpecNetlink SpecCompare Cache.

(** One call made by a user, and the history of calls (oldest first). *)
Inductive call := CUpdate (m : cell) | CEndCycle.

(** The cookie of a record with a complete header. *)
Definition cookie_of (m : cell) : N := hdr_cookie (header (c_ar m)).
Definition usable (m : cell) : Prop := 72 ≤ length (header (c_ar m)).
Global Instance usable_dec m : Decision (usable m) := decide (72 ≤ length (header (c_ar m))).

(** The usable records given in the rounds of a history, newest round first;
    the head is the round still running. *)
Fixpoint rounds_from (acc : list (list cell)) (h : list call) : list (list cell) :=
  match h with
  | [] => acc
  | CUpdate m :: h' => rounds_from (match acc with
                                    | r :: rs => (r ++ (if decide (usable m) then [m] else [])) :: rs
                                    | [] => []
                                    end) h'
  | CEndCycle :: h' => rounds_from ([] :: acc) h'
  end.
Definition rounds (h : list call) : list (list cell) := rounds_from [[]] h.
Definition this_round (h : list call) : list cell := nth 0 (rounds h) [].
Definition last_round (h : list call) : list cell := nth 1 (rounds h) [].

(** The last record with cookie k in a round. *)
Definition last_for (k : N) (round : list cell) : option cell :=
  last (filter (fun m => cookie_of m = k) round).

(** What a call returns. *)
Inductive reply := RRecord (r : option cell) | RError | RResidual (m : gmap N cell).

(** Running the model over a history: replies (oldest first) and final cache. *)
Fixpoint run (c : cache) (h : list call) : list reply * cache :=
  match h with
  | [] => ([], c)
  | CUpdate m :: h' =>
      let (o, c') := update c m in
      let (rs, c'') := run c' h' in
      ((match o with Ret r => RRecord r | _ => RError end) :: rs, c'')
  | CEndCycle :: h' =>
      let (res, c') := end_cycle c in
      let (rs, c'') := run c' h' in
      (RResidual res :: rs, c'')
  end.

(** The reply the history h calls for. *)
Definition good_reply (h : list call) (a : call) (r : reply) : Prop :=
  match a with
  | CUpdate m =>
      if decide (usable m)
      then r = RRecord (if last_for (cookie_of m) (this_round h) then None else last_for (cookie_of m) (last_round h))
      else r = RError
  | CEndCycle => exists res, r = RResidual res /\
      forall k, res !! k = if last_for k (this_round h) then None else last_for k (last_round h)
  end.

(** The records given (the usable ones), and those handed back. *)
Definition given (h : list call) : list cell :=
  omap (fun a => match a with CUpdate m => if decide (usable m) then Some m else None | _ => None end) h.
Definition handed_back (rs : list reply) : list cell :=
  concat (map (fun r => match r with
                        | RRecord (Some m) => [m]
                        | RResidual m => (map_to_list m).*2
                        | _ => []
                        end) rs).
(** No cookie twice in one round. *)
Definition once_per_round (h : list call) : Prop :=
  Forall (fun round => NoDup (cookie_of <$> round)) (rounds h).
(** What the cache still holds. *)
Definition held (c : cache) : list cell := (map_to_list (cur c)).*2 ++ (map_to_list (prev c)).*2.
(** The number of completed rounds. *)
Definition completed (h : list call) : nat :=
  length (List.filter (fun a => match a with CEndCycle => true | CUpdate _ => false end) h).
