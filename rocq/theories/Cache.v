(** Model of cache/cache.go. *)
From stdpp Require Import gmap.
From Coq Require Import NArith ZArith.
From Verif Require Import GoBase Inetdiag Netlink.

(** A *netlink.ArchivalRecord: [c_uid] is the identity of the pointer (the
    marshallers overwrite the addresses of a record in place, see System.v),
    [c_ar] the record as it was when the saver built it. (cache/cache.go:20-25) *)
Record cell := mkcell { c_uid : nat; c_ar : archival }.

(** cache/cache.go:20-25 type Cache.  Simplification: the int64 counter does not
    wrap. *)
Record cache := mkcache { cur : gmap N cell; prev : gmap N cell; cycles : Z }.

(** cache/cache.go:29-32 NewCache (capacities are not modelled) *)
Definition new_cache : cache := mkcache ∅ ∅ 0.

(** idm.ID.Cookie() of the parsed RawIDM, as at cache/cache.go:36-40 and
    saver/saver.go:249-254. *)
Definition record_cookie (r : archival) : outcome N :=
  bind (parse_idm (ar_raw r)) (fun m => Ret (cookie (idiag_id m))).

(** cache/cache.go:35-47 Update: the evicted record (None is nil) or an error. *)
Definition update (c : cache) (msg : cell) : outcome (option cell) * cache :=
  match record_cookie (c_ar msg) with
  | Ret k =>
      let cur' := <[k := msg]> (cur c) in
      match prev c !! k with
      | Some evicted => (Ret (Some evicted), mkcache cur' (delete k (prev c)) (cycles c))
      | None => (Ret None, mkcache cur' (prev c) (cycles c))
      end
  | Fail e => (Fail e, c)
  | Panic => (Panic, c)
  | Diverge => (Diverge, c)
  end.

(** cache/cache.go:52-62 EndCycle (the CacheSizeHistogram observation is
    recorded by the caller, Saver.v) *)
Definition end_cycle (c : cache) : gmap N cell * cache :=
  (prev c, mkcache ∅ (cur c) (cycles c + 1)).

(** cache/cache.go:65-68 CycleCount *)
Definition cycle_count (c : cache) : Z := cycles c.
