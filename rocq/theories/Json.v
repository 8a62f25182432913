(** Model of the parts of encoding/json (Go 1.20) behind json.Marshal at
    saver/saver.go:79 and 153 and eventsocket/server.go:105, and behind
    json.Unmarshal at netlink/archival-record.go:369 and
    eventsocket/client.go:50: JSON texts as trees, their compact rendering, the
    syntax check with the parsing, and string literals. *)
From Coq Require Import Strings.String List NArith ZArith Bool.
From Verif Require Import GoBase Rfc3339.
Import ListNotations.
Local Open Scope list_scope.

(** A JSON text.  Numbers and strings are kept as they are written, strings
    without their quotes (the decoder interprets them when it knows the type to
    decode into).
    (for netlink/archival-record.go:369, saver/saver.go:79 and 153, eventsocket/server.go:105, eventsocket/client.go:50) *)
Inductive json :=
| JNull | JBool (b : bool) | JNum (raw : bytes) | JStr (raw : bytes)
| JArr (l : list json) | JObj (l : list (bytes * json)).

(** ** Rendering: the encoders of encoding/json write no white space
    (for netlink/archival-record.go:369, saver/saver.go:79 and 153, eventsocket/server.go:105, eventsocket/client.go:50) *)
Fixpoint join (sep : byte) (l : list bytes) : bytes :=
  match l with
  | [] => []
  | [a] => a
  | a :: r => a ++ sep :: join sep r
  end.
(** A string literal.
    (for netlink/archival-record.go:369, saver/saver.go:79 and 153, eventsocket/server.go:105, eventsocket/client.go:50) *)
Definition in_quotes (raw : bytes) : bytes := x22 :: raw ++ [x22].
(** The text written by json.Marshal.
    (for netlink/archival-record.go:369, saver/saver.go:79 and 153, eventsocket/server.go:105, eventsocket/client.go:50) *)
Fixpoint render (j : json) : bytes :=
  match j with
  | JNull => str "null"
  | JBool true => str "true"
  | JBool false => str "false"
  | JNum raw => raw
  | JStr raw => in_quotes raw
  | JArr l => x5b :: join x2c (map render l) ++ [x5d]
  | JObj l => x7b :: join x2c (map (fun kv => in_quotes (fst kv) ++ x3a :: render (snd kv)) l) ++ [x7d]
  end.

(** ** Parsing: json.checkValid and the scanner
    (for netlink/archival-record.go:369, saver/saver.go:79 and 153, eventsocket/server.go:105, eventsocket/client.go:50) *)
Definition is_space (c : byte) : bool := Byte.eqb c x20 || Byte.eqb c x09 || Byte.eqb c x0d || Byte.eqb c x0a.
(** The scanner skips white space between tokens.
    (for netlink/archival-record.go:369, saver/saver.go:79 and 153, eventsocket/server.go:105, eventsocket/client.go:50) *)
Fixpoint skip_ws (l : bytes) : bytes :=
  match l with
  | c :: r => if is_space c then skip_ws r else l
  | [] => []
  end.

(** The value of a hexadecimal digit (json.getu4).
    (for netlink/archival-record.go:369, saver/saver.go:79 and 153, eventsocket/server.go:105, eventsocket/client.go:50) *)
Definition hex_char (c : byte) : option N :=
  let v := bval c in
  (if (48 <=? v) && (v <=? 57) then Some (v - 48)
   else if (97 <=? v) && (v <=? 102) then Some (v - 87)
   else if (65 <=? v) && (v <=? 70) then Some (v - 55)
   else None)%N.
(** scanner.stateInStringEscU and the three states after it
    (for netlink/archival-record.go:369, saver/saver.go:79 and 153, eventsocket/server.go:105, eventsocket/client.go:50) *)
Definition is_hex (c : byte) : bool := match hex_char c with Some _ => true | None => false end.
(** scanner.stateInStringEsc: the characters b f n r t \ / and the quote
    (for netlink/archival-record.go:369, saver/saver.go:79 and 153, eventsocket/server.go:105, eventsocket/client.go:50) *)
Definition simple_escape (c : byte) : bool :=
  existsb (Byte.eqb c) [x62; x66; x6e; x72; x74; x5c; x2f; x22].

(** scanner.stateInString and the states of escapes: after an opening quote,
    what is before the closing quote, and the rest
    (for netlink/archival-record.go:369, saver/saver.go:79 and 153, eventsocket/server.go:105, eventsocket/client.go:50) *)
Definition prepend (p : bytes) (x : option (bytes * bytes)) : option (bytes * bytes) :=
  match x with Some (a, b) => Some (p ++ a, b) | None => None end.
(** scanner.stateInString: what is before the closing quote, and the rest
    (for netlink/archival-record.go:369, saver/saver.go:79 and 153, eventsocket/server.go:105, eventsocket/client.go:50) *)
Fixpoint scan_str (l : bytes) : option (bytes * bytes) :=
  match l with
  | [] => None
  | c :: r =>
      if Byte.eqb c x22 then Some ([], r)
      else if Byte.eqb c x5c then
        match r with
        | [] => None
        | e :: r1 =>
            if simple_escape e then prepend [c; e] (scan_str r1)
            else if Byte.eqb e x75 then
              match r1 with
              | h1 :: h2 :: h3 :: h4 :: r2 =>
                  if is_hex h1 && is_hex h2 && is_hex h3 && is_hex h4
                  then prepend [c; e; h1; h2; h3; h4] (scan_str r2) else None
              | _ => None
              end
            else None
        end
      else if (bval c <? 32)%N then None
      else prepend [c] (scan_str r)
  end.

(** scanner.stateNeg, state0, state1, stateDot, stateE: a number literal
    (for netlink/archival-record.go:369, saver/saver.go:79 and 153, eventsocket/server.go:105, eventsocket/client.go:50) *)
Definition scan_frac (l : bytes) : option (bytes * bytes) :=
  match l with
  | x2e :: r => match span_digits r with ([], _) => None | (ds, r') => Some (x2e :: ds, r') end
  | _ => Some ([], l)
  end.
(** scanner.stateE, stateESign, stateE0
    (for netlink/archival-record.go:369, saver/saver.go:79 and 153, eventsocket/server.go:105, eventsocket/client.go:50) *)
Definition scan_exp (l : bytes) : option (bytes * bytes) :=
  match l with
  | c :: r =>
      if Byte.eqb c x65 || Byte.eqb c x45 then
        let (sg, r1) := match r with
                        | s :: r1 => if Byte.eqb s x2b || Byte.eqb s x2d then ([s], r1) else ([], r)
                        | [] => ([], [])
                        end in
        match span_digits r1 with ([], _) => None | (ds, r') => Some (c :: sg ++ ds, r') end
      else Some ([], l)
  | [] => Some ([], [])
  end.
(** scanner.state0, state1
    (for netlink/archival-record.go:369, saver/saver.go:79 and 153, eventsocket/server.go:105, eventsocket/client.go:50) *)
Definition scan_int (l : bytes) : option (bytes * bytes) :=
  match l with
  | c :: r =>
      if Byte.eqb c x30 then Some ([x30], r)
      else match span_digits l with ([], _) => None | (ds, r') => Some (ds, r') end
  | [] => None
  end.
(** scanner.stateNeg and the states above: a whole number
    (for netlink/archival-record.go:369, saver/saver.go:79 and 153, eventsocket/server.go:105, eventsocket/client.go:50) *)
Definition scan_num (l : bytes) : option (bytes * bytes) :=
  let (sg, r0) := match l with
                  | c :: r => if Byte.eqb c x2d then ([x2d], r) else ([], l)
                  | [] => ([], [])
                  end in
  match scan_int r0 with
  | Some (i, r1) =>
      match scan_frac r1 with
      | Some (f, r2) =>
          match scan_exp r2 with
          | Some (e, r3) => Some (sg ++ i ++ f ++ e, r3)
          | None => None
          end
      | None => None
      end
  | None => None
  end.

(** bytes.TrimPrefix, None if it is not a prefix
    (for netlink/archival-record.go:369, saver/saver.go:79 and 153, eventsocket/server.go:105, eventsocket/client.go:50) *)
Fixpoint strip_prefix (p l : bytes) : option bytes :=
  match p, l with
  | [], _ => Some l
  | a :: p', b :: l' => if Byte.eqb a b then strip_prefix p' l' else None
  | _ :: _, [] => None
  end.
(** scanner.stateT, stateF, stateN and the states after them
    (for netlink/archival-record.go:369, saver/saver.go:79 and 153, eventsocket/server.go:105, eventsocket/client.go:50) *)
Definition literal (word : bytes) (v : json) (l : bytes) : option (json * bytes) :=
  match strip_prefix word l with Some r => Some (v, r) | None => None end.

(** scanner.stateBeginValue, stateBeginString, stateEndValue: a value; the
    elements of an array after '[' (at least one), up to the ']'; the members of
    an object after '{'.  Each turn uses up input, so that the length of the
    input is enough fuel for every text.
    (for netlink/archival-record.go:369, saver/saver.go:79 and 153, eventsocket/server.go:105, eventsocket/client.go:50) *)
Fixpoint value (n : nat) (l : bytes) {struct n} : option (json * bytes) :=
  match n with
  | O => None
  | S n =>
      match skip_ws l with
      | [] => None
      | c :: r =>
          if Byte.eqb c x22 then match scan_str r with Some (s, r') => Some (JStr s, r') | None => None end
          else if Byte.eqb c x5b then
            match skip_ws r with
            | d :: r1 =>
                if Byte.eqb d x5d then Some (JArr [], r1)
                else match elements n r with Some (l, r') => Some (JArr l, r') | None => None end
            | [] => None
            end
          else if Byte.eqb c x7b then
            match skip_ws r with
            | d :: r1 =>
                if Byte.eqb d x7d then Some (JObj [], r1)
                else match members n r with Some (l, r') => Some (JObj l, r') | None => None end
            | [] => None
            end
          else if Byte.eqb c x6e then literal (str "null") JNull (c :: r)
          else if Byte.eqb c x74 then literal (str "true") (JBool true) (c :: r)
          else if Byte.eqb c x66 then literal (str "false") (JBool false) (c :: r)
          else match scan_num (c :: r) with Some (s, r') => Some (JNum s, r') | None => None end
      end
  end
(** The elements of an array after the first bracket (for netlink/archival-record.go:369, saver/saver.go:79 and 153, eventsocket/server.go:105, eventsocket/client.go:50) *)
with elements (n : nat) (l : bytes) {struct n} : option (list json * bytes) :=
  match n with
  | O => None
  | S n =>
      match value n l with
      | Some (v, r) =>
          match skip_ws r with
          | c :: r1 =>
              if Byte.eqb c x5d then Some ([v], r1)
              else if Byte.eqb c x2c then
                match elements n r1 with Some (vs, r2) => Some (v :: vs, r2) | None => None end
              else None
          | [] => None
          end
      | None => None
      end
  end
(** The members of an object after the first brace (for netlink/archival-record.go:369, saver/saver.go:79 and 153, eventsocket/server.go:105, eventsocket/client.go:50) *)
with members (n : nat) (l : bytes) {struct n} : option (list (bytes * json) * bytes) :=
  match n with
  | O => None
  | S n =>
      match skip_ws l with
      | q :: r0 =>
          if Byte.eqb q x22 then
            match scan_str r0 with
            | Some (k, r1) =>
                match skip_ws r1 with
                | cl :: r2 =>
                    if Byte.eqb cl x3a then
                      match value n r2 with
                      | Some (v, r) =>
                          match skip_ws r with
                          | c :: r3 =>
                              if Byte.eqb c x7d then Some ([(k, v)], r3)
                              else if Byte.eqb c x2c then
                                match members n r3 with Some (vs, r4) => Some ((k, v) :: vs, r4) | None => None end
                              else None
                          | [] => None
                          end
                      | None => None
                      end
                    else None
                | [] => None
                end
            | None => None
            end
          else None
      | [] => None
      end
  end.
(** The arrays and objects around the innermost value: the most that are in
    scanner.parseState at a time
    (for netlink/archival-record.go:369, saver/saver.go:79 and 153, eventsocket/server.go:105, eventsocket/client.go:50) *)
Fixpoint depth (j : json) : N :=
  match j with
  | JArr l => N.succ (fold_right N.max 0%N (map depth l))
  | JObj l => N.succ (fold_right N.max 0%N (map (fun m => depth (snd m)) l))
  | _ => 0
  end.
(** json.maxNestingDepth
    (for netlink/archival-record.go:369, saver/saver.go:79 and 153, eventsocket/server.go:105, eventsocket/client.go:50) *)
Definition max_depth : N := 10000.
(** json.checkValid: one value with white space around it.  The scanner stops at the
    bracket that is one too many; the error is the same as if it came at the end.
    (for netlink/archival-record.go:369, saver/saver.go:79 and 153, eventsocket/server.go:105, eventsocket/client.go:50) *)
Definition parse (l : bytes) : option json :=
  match value (S (length l)) l with
  | Some (j, r) => match skip_ws r with [] => if (depth j <=? max_depth)%N then Some j else None | _ => None end
  | None => None
  end.

(** ** UTF-8
    (for netlink/archival-record.go:369, saver/saver.go:79 and 153, eventsocket/server.go:105, eventsocket/client.go:50) *)
Definition between (lo hi : N) (c : byte) : bool := ((lo <=? bval c) && (bval c <=? hi))%N.
(** A continuation byte of UTF-8.
    (for netlink/archival-record.go:369, saver/saver.go:79 and 153, eventsocket/server.go:105, eventsocket/client.go:50) *)
Definition cont (c : byte) : bool := between 128 191 c.
(** utf8.DecodeRune on a sequence that begins with a byte >= 0x80: the number of
    bytes of the character, 0 if they are not valid UTF-8
    (for netlink/archival-record.go:369, saver/saver.go:79 and 153, eventsocket/server.go:105, eventsocket/client.go:50) *)
Definition rune_size (l : bytes) : nat :=
  match l with
  | a :: b :: r =>
      if between 194 223 a && cont b then 2
      else if (Byte.eqb a xe0 && between 160 191 b)
              || ((between 225 236 a || between 238 239 a) && cont b)
              || (Byte.eqb a xed && between 128 159 b)
      then match r with c :: _ => if cont c then 3 else 0 | [] => 0 end
      else if (Byte.eqb a xf0 && between 144 191 b)
              || (between 241 243 a && cont b)
              || (Byte.eqb a xf4 && between 128 143 b)
      then match r with c :: d :: _ => if cont c && cont d then 4 else 0 | _ => 0 end
      else 0
  | _ => 0
  end.
(** utf8.AppendRune for a code point below 0x110000
    (for netlink/archival-record.go:369, saver/saver.go:79 and 153, eventsocket/server.go:105, eventsocket/client.go:50) *)
Definition put_rune (r : N) : bytes :=
  (if r <? 128 then [byte_of r]
   else if r <? 2048 then [byte_of (192 + r / 64); byte_of (128 + r mod 64)]
   else if r <? 65536 then [byte_of (224 + r / 4096); byte_of (128 + r / 64 mod 64); byte_of (128 + r mod 64)]
   else [byte_of (240 + r / 262144); byte_of (128 + r / 4096 mod 64); byte_of (128 + r / 64 mod 64); byte_of (128 + r mod 64)])%N.
(** unicode.ReplacementChar in UTF-8
    (for netlink/archival-record.go:369, saver/saver.go:79 and 153, eventsocket/server.go:105, eventsocket/client.go:50) *)
Definition replacement : bytes := [xef; xbf; xbd].

(** ** String literals *)
(** json.hex
    (for netlink/archival-record.go:369, saver/saver.go:79 and 153, eventsocket/server.go:105, eventsocket/client.go:50) *)
Definition hex_low (n : N) : byte := (if n <? 10 then byte_of (48 + n) else byte_of (87 + n))%N.
(** encodeState.string with escapeHTML: how a byte below 0x80 is written
    (for netlink/archival-record.go:369, saver/saver.go:79 and 153, eventsocket/server.go:105, eventsocket/client.go:50) *)
Definition quote_ascii (c : byte) : bytes :=
  if Byte.eqb c x5c || Byte.eqb c x22 then [x5c; c]
  else if Byte.eqb c x0a then [x5c; x6e]
  else if Byte.eqb c x0d then [x5c; x72]
  else if Byte.eqb c x09 then [x5c; x74]
  else if (bval c <? 32)%N || Byte.eqb c x3c || Byte.eqb c x3e || Byte.eqb c x26
  then [x5c; x75; x30; x30; hex_low (bval c / 16); hex_low (bval c mod 16)]
  else [c].
(** encodeState.string: the last digit of U+2028 and U+2029, which are escaped
    (for netlink/archival-record.go:369, saver/saver.go:79 and 153, eventsocket/server.go:105, eventsocket/client.go:50) *)
Definition separator (l : bytes) : option byte :=
  match l with
  | xe2 :: x80 :: xa8 :: _ => Some x38
  | xe2 :: x80 :: xa9 :: _ => Some x39
  | _ => None
  end.
(** encodeState.string: [copy] bytes of a valid character are still to be
    copied, [skip] bytes of U+2028 or U+2029 to be left out.  Bytes that are not
    UTF-8 are replaced.
    (for netlink/archival-record.go:369, saver/saver.go:79 and 153, eventsocket/server.go:105, eventsocket/client.go:50) *)
Fixpoint quote_go (copy skip : nat) (l : bytes) : bytes :=
  match l with
  | [] => []
  | c :: r =>
      match copy, skip with
      | S k, _ => c :: quote_go k 0 r
      | O, S k => quote_go 0 k r
      | O, O =>
          if (bval c <? 128)%N then quote_ascii c ++ quote_go 0 0 r
          else match rune_size l with
               | O => [x5c; x75; x66; x66; x66; x64] ++ quote_go 0 0 r
               | S k =>
                   match separator l with
                   | Some d => [x5c; x75; x32; x30; x32; d] ++ quote_go 0 2 r
                   | None => c :: quote_go k 0 r
                   end
               end
      end
  end.
(** encodeState.string without the quotes
    (for netlink/archival-record.go:369, saver/saver.go:79 and 153, eventsocket/server.go:105, eventsocket/client.go:50) *)
Definition quote (s : bytes) : bytes := quote_go 0 0 s.

(** json.getu4
    (for netlink/archival-record.go:369, saver/saver.go:79 and 153, eventsocket/server.go:105, eventsocket/client.go:50) *)
Definition getu4 (a b c d : byte) : N :=
  match hex_char a, hex_char b, hex_char c, hex_char d with
  | Some a, Some b, Some c, Some d => (((a * 16 + b) * 16 + c) * 16 + d)%N
  | _, _, _, _ => 65533%N
  end.
(** json.unquoteBytes
    (for netlink/archival-record.go:369, saver/saver.go:79 and 153, eventsocket/server.go:105, eventsocket/client.go:50) *)
Definition unescape (e : byte) : byte :=
  match e with x62 => x08 | x66 => x0c | x6e => x0a | x72 => x0d | x74 => x09 | _ => e end.
(** json.unquoteBytes on a literal that passed the scanner.  A valid character
    is copied (Go decodes and encodes it again), a byte that is not UTF-8 is
    replaced, and so is half a surrogate pair.
    (for netlink/archival-record.go:369, saver/saver.go:79 and 153, eventsocket/server.go:105, eventsocket/client.go:50) *)
Fixpoint unquote_go (copy : nat) (l : bytes) : bytes :=
  match l with
  | [] => []
  | c :: r =>
      match copy with
      | S k => c :: unquote_go k r
      | O =>
          if Byte.eqb c x5c then
            match r with
            | x75 :: a :: b :: d :: e :: r1 =>
                let u := getu4 a b d e in
                if ((55296 <=? u) && (u <? 57344))%N then
                  match r1 with
                  | x5c :: x75 :: a2 :: b2 :: d2 :: e2 :: r2 =>
                      let v := getu4 a2 b2 d2 e2 in
                      if ((u <? 56320) && (56320 <=? v) && (v <? 57344))%N
                      then put_rune ((u - 55296) * 1024 + (v - 56320) + 65536)%N ++ unquote_go 0 r2
                      else replacement ++ unquote_go 0 r1
                  | _ => replacement ++ unquote_go 0 r1
                  end
                else put_rune u ++ unquote_go 0 r1
            | e :: r1 => unescape e :: unquote_go 0 r1
            | [] => []
            end
          else if (bval c <? 128)%N then c :: unquote_go 0 r
          else match rune_size l with
               | O => replacement ++ unquote_go 0 r
               | S k => c :: unquote_go k r
               end
      end
  end.
(** json.unquote without the quotes
    (for netlink/archival-record.go:369, saver/saver.go:79 and 153, eventsocket/server.go:105, eventsocket/client.go:50) *)
Definition unquote (raw : bytes) : bytes := unquote_go 0 raw.

(** ** Numbers: strconv.ParseInt and ParseUint in base 10 on a number literal
    (for netlink/archival-record.go:369, saver/saver.go:79 and 153, eventsocket/server.go:105, eventsocket/client.go:50) *)
Definition parse_int (lo hi : Z) (raw : bytes) : option Z :=
  let (neg, ds) := match raw with
                   | c :: r => if Byte.eqb c x2d then (true, r) else (false, raw)
                   | [] => (false, [])
                   end in
  match ds, uint_go 0 ds with
  | _ :: _, Some x =>
      let z := if neg then (- x)%Z else x in
      if (lo <=? z)%Z && (z <=? hi)%Z then Some z else None
  | _, _ => None
  end.

(** strconv.ParseUint with a bound
    (for netlink/archival-record.go:369, saver/saver.go:79 and 153, eventsocket/server.go:105, eventsocket/client.go:50) *)
Definition parse_unsigned (hi : Z) (raw : bytes) : option Z :=
  match raw, uint_go 0 raw with
  | _ :: _, Some x => if (x <=? hi)%Z then Some x else None
  | _, _ => None
  end.

(** ** Keys: the decoder compares field names without case.
    (for netlink/archival-record.go:369, saver/saver.go:79 and 153, eventsocket/server.go:105, eventsocket/client.go:50) *)
Definition lower (c : byte) : byte := if between 65 90 c then byte_of (bval c + 32) else c.
(** The name in lower case, with U+017F (c5 bf) for s and U+212A (e2 84 aa) for k, as
    json.equalFoldRight takes them
    (for netlink/archival-record.go:369, saver/saver.go:79 and 153, eventsocket/server.go:105, eventsocket/client.go:50) *)
Fixpoint fold_key (b : bytes) : bytes :=
  match b with
  | [] => []
  | c :: r =>
      match r with
      | [] => [lower c]
      | d :: r' =>
          if Byte.eqb c xc5 && Byte.eqb d xbf then x73 :: fold_key r'
          else
            match r' with
            | [] => lower c :: fold_key r
            | e :: r'' => if Byte.eqb c xe2 && Byte.eqb d x84 && Byte.eqb e xaa then x6b :: fold_key r'' else lower c :: fold_key r
            end
      end
  end.
(** json.foldFunc: equal without case.  The special letters matter only for names with
    an s or a k, as the foldFunc of other names is for ASCII.
    (for netlink/archival-record.go:369, saver/saver.go:79 and 153, eventsocket/server.go:105, eventsocket/client.go:50) *)
Definition same_key (field key : bytes) : bool := bytes_eqb (map lower field) (fold_key key).
