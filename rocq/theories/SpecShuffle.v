(** JSON texts that say the same with their members in another order. *)
From Coq Require Import List NArith ZArith Permutation.
From Verif Require Import GoBase Json.
Import ListNotations.

(** Two members whose names differ in more than upper and lower case *)
Definition apart (a b : bytes * json) : Prop := fold_key (unquote (fst a)) <> fold_key (unquote (fst b)).
(** The members of an object reordered, also within their values; no name occurs
    twice. *)
Inductive shuffled : json -> json -> Prop :=
| shuffled_same j : shuffled j j
| shuffled_object l m l' : Forall2 (fun a b => fst a = fst b /\ shuffled (snd a) (snd b)) l m ->
    ForallOrdPairs apart l -> Permutation m l' -> shuffled (JObj l) (JObj l').
(** A name that is none of these fields *)
Definition unknown (fields : list bytes) (k : bytes) : Prop := Forall (fun f => map lower f <> fold_key (unquote k)) fields.
(** No member has the name of this field. *)
Definition missing (f : bytes) (l : list (bytes * json)) : Prop := Forall (fun m => map lower f <> fold_key (unquote (fst m))) l.
