(** The figures LogCacheStats prints (saver/saver.go:158-188, 500-506) when it
    is called, as collector/collector_linux.go:75-77 does, while the saver is at
    work in another goroutine. *)
From stdpp Require Import gmap.
From Coq Require Import NArith ZArith.
From Verif Require Import GoBase Inetdiag Netlink Cache Saver.

(** The values the four counters take while they go from [c] to [c']:
    swapAndQueue begins with IncTotalCount (saver/saver.go:433) and makes at most
    one other increment, IncNewCount (441) or IncDiffCount (474), later; the loop
    over the residual makes one, IncExpiredCount (384).  Each increment is one
    atomic.AddInt64 (165-179). *)
Definition values (c c' : counters) : list counters :=
  if n_total c <? n_total c' then [mkcnt (S (n_total c)) (n_new c) (n_diff c) (n_expired c); c'] else [c'].

Section Values.
Variables (w : world) (cf : config).

(** The values taken during a loop with body [f], saver/saver.go:304, 353 *)
Fixpoint values_of {A} (f : saver -> A -> saver) (l : list A) (s : saver) : list counters :=
  match l with
  | [] => []
  | a :: l => values (s_stats s) (s_stats (f s a)) ++ values_of f l (f s a)
  end.
(** ... during one iteration of MessageSaverLoop, saver/saver.go:338-428 *)
Definition block_values (b : block) (s : saver) : list counters :=
  let h4 := fun s m => handle_msg w cf c_ar (V4Time b) m s in
  let h6 := fun s m => handle_msg w cf c_ar (V6Time b) m s in
  let s4 := handle_type w cf c_ar (V4Time b) (V4Messages b) s in
  let s6 := handle_type w cf c_ar (V6Time b) (V6Messages b) s4 in
  let r := end_round w s6 in
  values_of h4 (V4Messages b) s ++ values_of h6 (V6Messages b) s4 ++
  values_of (fun s km => close_one w cf c_ar km s) r.1 r.2.
(** ... during MessageSaverLoop, saver/saver.go:331-430 *)
Fixpoint loop_values (bs : list block) (s : saver) : list counters :=
  match bs with
  | [] => []
  | b :: bs => block_values b s ++ loop_values bs (do_block w cf c_ar b s)
  end.
(** ... from NewSaver on (saver/saver.go:218-244) *)
Definition all_values (bs : list block) : list counters := s_stats new_saver :: loop_values bs new_saver.
End Values.

(** saver/saver.go:181-188 Copy: four loads one after the other, while the
    counters go through [vs]; the loads find the values numbered [a], [b], [c]
    and [d]. *)
Definition copied (vs : list counters) (a b c d : nat) (r : counters) : Prop :=
  a <= b <= c /\ c <= d /\ exists va vb vc vd,
    vs !! a = Some va /\ vs !! b = Some vb /\ vs !! c = Some vc /\ vs !! d = Some vd /\
    r = mkcnt (n_total va) (n_new vb) (n_diff vc) (n_expired vd).
(** saver/saver.go:500-506 LogCacheStats given what Copy returned at 501 *)
Definition figures (localCount errCount : Z) (c : counters) : Z * Z * Z * Z * Z :=
  log_cache_stats localCount errCount (with_stats c new_saver).
