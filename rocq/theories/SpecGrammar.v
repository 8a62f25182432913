(** Specification of the lines that readers accept: the grammar of JSON (RFC
    8259), what string literals spell, base64 (RFC 4648) and times (RFC 3339). *)
From Coq Require Import Strings.String List NArith ZArith Bool.
From Verif Require Import GoBase Json SpecJson.
Import ListNotations.
Local Open Scope list_scope.

(** ** The grammar of JSON *)
(** White space *)
Definition blank (b : bytes) : Prop := Forall (fun c => In c [x20; x09; x0a; x0d]) b.
Definition digit (c : byte) : Prop := (48 <= bval c <= 57)%N.
Definition hex (c : byte) : Prop := (48 <= bval c <= 57)%N \/ (65 <= bval c <= 70)%N \/ (97 <= bval c <= 102)%N.

(** What may stand between the quotes of a string *)
Inductive chars : bytes -> Prop :=
| chars_end : chars []
| chars_plain c r : (32 <= bval c)%N -> c <> x22 -> c <> x5c -> chars r -> chars (c :: r)
| chars_escape c r : In c (x22 :: str "\/bfnrt") -> chars r -> chars (x5c :: c :: r)
| chars_unicode a b c d r : hex a -> hex b -> hex c -> hex d -> chars r -> chars (x5c :: x75 :: a :: b :: c :: d :: r).

(** Numbers *)
Definition whole (i : bytes) : Prop := i = str "0" \/ exists c r, i = c :: r /\ (49 <= bval c <= 57)%N /\ Forall digit r.
Definition fraction (f : bytes) : Prop := f = [] \/ exists d, f = x2e :: d /\ d <> [] /\ Forall digit d.
Definition exponent (e : bytes) : Prop :=
  e = [] \/ exists c s d, e = c :: s ++ d /\ In c (str "eE") /\ (s = [] \/ s = str "+" \/ s = str "-") /\ d <> [] /\ Forall digit d.
Definition number (n : bytes) : Prop :=
  exists s i f e, n = s ++ i ++ f ++ e /\ (s = [] \/ s = str "-") /\ whole i /\ fraction f /\ exponent e.

(** Values, values with white space around them, the elements of an array and the
    members of an object *)
Inductive text : json -> bytes -> Prop :=
| text_null : text JNull (str "null")
| text_true : text (JBool true) (str "true")
| text_false : text (JBool false) (str "false")
| text_number n : number n -> text (JNum n) n
| text_string s : chars s -> text (JStr s) (x22 :: s ++ [x22])
| text_empty_array w : blank w -> text (JArr []) (x5b :: w ++ [x5d])
| text_array l b : items l b -> text (JArr l) (x5b :: b ++ [x5d])
| text_empty_object w : blank w -> text (JObj []) (x7b :: w ++ [x7d])
| text_object l b : pairs l b -> text (JObj l) (x7b :: b ++ [x7d])
with spaced : json -> bytes -> Prop :=
| spaced_text w j b w' : blank w -> text j b -> blank w' -> spaced j (w ++ b ++ w')
with items : list json -> bytes -> Prop :=
| items_last j b : spaced j b -> items [j] b
| items_more j b l bs : spaced j b -> items l bs -> items (j :: l) (b ++ x2c :: bs)
with pair : bytes * json -> bytes -> Prop :=
| pair_text w k w' j b : blank w -> chars k -> blank w' -> spaced j b -> pair (k, j) (w ++ x22 :: k ++ x22 :: w' ++ x3a :: b)
with pairs : list (bytes * json) -> bytes -> Prop :=
| pairs_last m b : pair m b -> pairs [m] b
| pairs_more m b l bs : pair m b -> pairs l bs -> pairs (m :: l) (b ++ x2c :: bs).

(** At most n arrays and objects inside one another *)
Inductive within : N -> json -> Prop :=
| within_null n : within n JNull
| within_bool n b : within n (JBool b)
| within_num n s : within n (JNum s)
| within_str n s : within n (JStr s)
| within_arr n l : Forall (within n) l -> within (N.succ n) (JArr l)
| within_obj n l : Forall (fun m => within n (snd m)) l -> within (N.succ n) (JObj l).
(** The texts that Go takes for JSON *)
Definition json_text (j : json) (b : bytes) : Prop := spaced j b /\ within 10000 j.

(** ** What a literal stands for *)
(** Two hexadecimal digits of a literal *)
Definition nibble (c : byte) : N := if (bval c <? 58)%N then bval c - 48 else if (bval c <? 71)%N then bval c - 55 else bval c - 87.
Definition unit4 (a b c d : byte) : N := (nibble a * 4096 + nibble b * 256 + nibble c * 16 + nibble d)%N.
Definition high_half (u : N) : Prop := (55296 <= u < 56320)%N.
Definition low_half (u : N) : Prop := (56320 <= u < 57344)%N.
Definition short_escape (c : byte) (v : N) : Prop :=
  In (c, v) [(x22, 34); (x5c, 92); (x2f, 47); (x62, 8); (x66, 12); (x6e, 10); (x72, 13); (x74, 9)]%N.
(** The text of a string literal: UTF-16 escapes, the one-letter escapes, and
    everything else as it is; what is not Unicode is U+FFFD, for each byte and for
    each half of a surrogate pair *)
Inductive spells : bytes -> bytes -> Prop :=
| spells_end : spells [] []
| spells_char r l s : scalar r -> r <> 92%N -> spells l s -> spells (utf8_of r ++ l) (utf8_of r ++ s)
| spells_escape c v l s : short_escape c v -> spells l s -> spells (x5c :: c :: l) (utf8_of v ++ s)
| spells_unit a b c d l s : scalar (unit4 a b c d) -> spells l s ->
    spells (x5c :: x75 :: a :: b :: c :: d :: l) (utf8_of (unit4 a b c d) ++ s)
| spells_pair a b c d a' b' c' d' l s : high_half (unit4 a b c d) -> low_half (unit4 a' b' c' d') -> spells l s ->
    spells (x5c :: x75 :: a :: b :: c :: d :: x5c :: x75 :: a' :: b' :: c' :: d' :: l)
           (utf8_of (65536 + (unit4 a b c d - 55296) * 1024 + (unit4 a' b' c' d' - 56320)) ++ s)
| spells_half a b c d l s : ~ scalar (unit4 a b c d) ->
    (high_half (unit4 a b c d) -> forall a' b' c' d' l', l = x5c :: x75 :: a' :: b' :: c' :: d' :: l' -> ~ low_half (unit4 a' b' c' d')) ->
    spells l s -> spells (x5c :: x75 :: a :: b :: c :: d :: l) (utf8_of 65533 ++ s)
| spells_junk c l s : (forall r l', scalar r -> c :: l <> utf8_of r ++ l') -> spells l s -> spells (c :: l) (utf8_of 65533 ++ s).
(** The decimal text of an integer; "-0" is another text of 0. *)
Definition signed_text (raw : bytes) (z : Z) : Prop := raw = decZ z \/ (raw = str "-0" /\ z = 0%Z).
Definition unsigned_text (raw : bytes) (n : N) : Prop := raw = dec n.
