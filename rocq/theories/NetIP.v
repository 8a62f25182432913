(** Model of the net.IP functions of the Go standard library that the code
    uses (net/ip.go, Go 1.20): To4, Equal, IsLoopback, IsLinkLocalUnicast,
    IsMulticast, IsUnspecified, IPv4, ParseIP, String. *)
From Coq Require Import List NArith Bool Arith.
From Verif Require Import GoBase.
Import ListNotations.
Local Open Scope N_scope.

(** ip[i] (for inetdiag/structs.go:203-225, netlink/archival-record.go:201-203) *)
Definition bget (i : nat) (l : bytes) : N := bval (nth i l x00).

(** net.v4InV6Prefix (for inetdiag/structs.go:203-225, netlink/archival-record.go:201-203) *)
Definition v4InV6Prefix : bytes := repeat x00 10 ++ [xff; xff].
(** net.isZeros; also the loop of inetdiag/structs.go:211-215 *)
Definition all_zero (l : bytes) : bool := forallb (fun b => Byte.eqb b x00) l.

(** net.IPv4: the 16-byte form. (for inetdiag/structs.go:203-225, netlink/archival-record.go:201-203) *)
Definition IPv4 (a b c d : byte) : bytes := v4InV6Prefix ++ [a; b; c; d].

(** func (ip IP) To4() (for inetdiag/structs.go:203-225, netlink/archival-record.go:201-203) *)
Definition to4 (ip : bytes) : option bytes :=
  if Nat.eqb (length ip) 4 then Some ip
  else if Nat.eqb (length ip) 16 && all_zero (firstn 10 ip)
          && (bget 10 ip =? 255) && (bget 11 ip =? 255)
       then Some (skipn 12 ip)
       else None.

(** func (ip IP) Equal(x IP) (for inetdiag/structs.go:203-225, netlink/archival-record.go:201-203) *)
Definition ip_equal (ip x : bytes) : bool :=
  if Nat.eqb (length ip) (length x) then bytes_eqb ip x
  else if Nat.eqb (length ip) 4 && Nat.eqb (length x) 16
       then bytes_eqb (firstn 12 x) v4InV6Prefix && bytes_eqb ip (skipn 12 x)
  else if Nat.eqb (length ip) 16 && Nat.eqb (length x) 4
       then bytes_eqb (firstn 12 ip) v4InV6Prefix && bytes_eqb (skipn 12 ip) x
  else false.

(** net.IPv6loopback (for inetdiag/structs.go:203-225, netlink/archival-record.go:201-203) *)
Definition IPv6loopback : bytes := repeat x00 15 ++ [x01].
(** net.IPv6unspecified (for inetdiag/structs.go:203-225, netlink/archival-record.go:201-203) *)
Definition IPv6unspecified : bytes := repeat x00 16.
(** net.IPv4zero (for inetdiag/structs.go:203-225, netlink/archival-record.go:201-203) *)
Definition IPv4zero : bytes := IPv4 x00 x00 x00 x00.

(** func (ip IP) IsLoopback(), called at netlink/archival-record.go:202 *)
Definition is_loopback (ip : bytes) : bool :=
  match to4 ip with
  | Some v4 => bget 0 v4 =? 127
  | None => ip_equal ip IPv6loopback
  end.

(** func (ip IP) IsLinkLocalUnicast(), called at netlink/archival-record.go:202 *)
Definition is_link_local_unicast (ip : bytes) : bool :=
  match to4 ip with
  | Some v4 => (bget 0 v4 =? 169) && (bget 1 v4 =? 254)
  | None => Nat.eqb (length ip) 16 && (bget 0 ip =? 254) && (N.land (bget 1 ip) 192 =? 128)
  end.

(** func (ip IP) IsMulticast(), called at netlink/archival-record.go:202 *)
Definition is_multicast (ip : bytes) : bool :=
  match to4 ip with
  | Some v4 => N.land (bget 0 v4) 240 =? 224
  | None => Nat.eqb (length ip) 16 && (bget 0 ip =? 255)
  end.

(** func (ip IP) IsUnspecified(), called at netlink/archival-record.go:202 *)
Definition is_unspecified (ip : bytes) : bool :=
  ip_equal ip IPv4zero || ip_equal ip IPv6unspecified.

(** ** net.ParseIP *)

(** A decimal digit. (for ParseIP at netlink/archival-record.go:76) *)
Definition is_dig (b : byte) : bool := (48 <=? bval b) && (bval b <=? 57).
(** The value of a hexadecimal digit, in the loop of xtoi. (for ParseIP at netlink/archival-record.go:76) *)
Definition hexv (b : byte) : option N :=
  let v := bval b in
  if (48 <=? v) && (v <=? 57) then Some (v - 48)
  else if (97 <=? v) && (v <=? 102) then Some (v - 87)
  else if (65 <=? v) && (v <=? 70) then Some (v - 55)
  else None.

(** const big (for ParseIP at netlink/archival-record.go:76) *)
Definition big : N := 16777215. (* 0xFFFFFF *)

(** func dtoi: value, number of digits and rest; None when !ok
    (for ParseIP at netlink/archival-record.go:76) *)
Fixpoint dtoi_go (n : N) (i : nat) (s : bytes) : option (N * nat * bytes) :=
  match s with
  | b :: r => if is_dig b
              then let n' := n * 10 + (bval b - 48) in
                   if big <=? n' then None else dtoi_go n' (S i) r
              else if Nat.eqb i 0 then None else Some (n, i, s)
  | [] => if Nat.eqb i 0 then None else Some (n, i, [])
  end.
(** func dtoi (for ParseIP at netlink/archival-record.go:76) *)
Definition dtoi (s : bytes) := dtoi_go 0 0 s.

(** func xtoi (for ParseIP at netlink/archival-record.go:76) *)
Fixpoint xtoi_go (n : N) (i : nat) (s : bytes) : option (N * nat * bytes) :=
  match s with
  | b :: r => match hexv b with
              | Some d => let n' := n * 16 + d in
                          if big <=? n' then None else xtoi_go n' (S i) r
              | None => if Nat.eqb i 0 then None else Some (n, i, s)
              end
  | [] => if Nat.eqb i 0 then None else Some (n, i, [])
  end.
(** func xtoi (for ParseIP at netlink/archival-record.go:76) *)
Definition xtoi (s : bytes) := xtoi_go 0 0 s.

(** One octet of parseIPv4: dtoi, at most 0xFF, no leading zero.
    (for ParseIP at netlink/archival-record.go:76) *)
Definition v4_octet (s : bytes) : option (byte * bytes) :=
  match dtoi s with
  | Some (n, c, r) =>
      if 255 <? n then None
      else if Nat.ltb 1 c && (bget 0 s =? 48) then None
      else Some (byte_of n, r)
  | None => None
  end.

(** The test for a dot in parseIPv4. (for ParseIP at netlink/archival-record.go:76) *)
Definition dot (s : bytes) : option bytes :=
  match s with b :: r => if bval b =? 46 then Some r else None | [] => None end.

(** func parseIPv4: the loop over four octets, unrolled. (for ParseIP at netlink/archival-record.go:76) *)
Definition parse_ipv4 (s : bytes) : option bytes :=
  match v4_octet s with
  | Some (a, s1) =>
    match dot s1 with
    | Some s1' =>
      match v4_octet s1' with
      | Some (b, s2) =>
        match dot s2 with
        | Some s2' =>
          match v4_octet s2' with
          | Some (c, s3) =>
            match dot s3 with
            | Some s3' =>
              match v4_octet s3' with
              | Some (d, []) => Some (IPv4 a b c d)
              | _ => None
              end
            | None => None
            end
          | None => None
          end
        | None => None
        end
      | None => None
      end
    | None => None
    end
  | None => None
  end.

(** The main loop of parseIPv6.  [n] bounds the iterations (at most 8 groups),
    [acc] are the bytes written so far (i = length acc), [ell] the position of
    the ellipsis.  Returns the bytes, the ellipsis and the unparsed rest.
    (for ParseIP at netlink/archival-record.go:76) *)
Fixpoint v6_loop (n : nat) (acc : bytes) (ell : option nat) (s : bytes)
  : option (bytes * option nat * bytes) :=
  match n with
  | O => Some (acc, ell, s)          (* i = IPv6len *)
  | S n' =>
    match xtoi s with
    | None => None
    | Some (v, c, r) =>
      if 65535 <? v then None
      else if match r with b :: _ => bval b =? 46 | [] => false end
      then (* followed by a dot: trailing IPv4 *)
        if match ell with None => negb (Nat.eqb (length acc) 12) | Some _ => false end then None
        else if Nat.ltb 16 (length acc + 4) then None
        else match parse_ipv4 s with
             | None => None
             | Some ip4 => Some (acc ++ skipn 12 ip4, ell, [])
             end
      else
        let acc' := acc ++ [byte_of (v / 256); byte_of v] in
        match r with
        | [] => Some (acc', ell, [])
        | b :: r1 =>
          if negb (bval b =? 58) then None
          else match r1 with
               | [] => None
               | b2 :: r2 =>
                 if bval b2 =? 58
                 then match ell with
                      | Some _ => None
                      | None => match r2 with
                                | [] => Some (acc', Some (length acc'), [])
                                | _ :: _ => v6_loop n' acc' (Some (length acc')) r2
                                end
                      end
                 else v6_loop n' acc' ell r1
               end
        end
    end
  end.

(** The end of parseIPv6: whole string used, ellipsis expanded.
    (for ParseIP at netlink/archival-record.go:76) *)
Definition v6_finish (x : option (bytes * option nat * bytes)) : option bytes :=
  match x with
  | Some (acc, ell, []) =>
    if Nat.ltb (length acc) 16 then
      match ell with
      | None => None
      | Some e => Some (firstn e acc ++ repeat x00 (16 - length acc) ++ skipn e acc)
      end
    else match ell with Some _ => None | None => Some acc end
  | _ => None
  end.

(** func parseIPv6: the leading ellipsis, then the loop (for ParseIP at netlink/archival-record.go:76) *)
Definition parse_ipv6 (s : bytes) : option bytes :=
  match s with
  | b1 :: b2 :: r =>
    if (bval b1 =? 58) && (bval b2 =? 58)
    then match r with
         | [] => Some (repeat x00 16)
         | _ :: _ => v6_finish (v6_loop 8 [] (Some 0%nat) r)
         end
    else v6_finish (v6_loop 8 [] None s)
  | _ => v6_finish (v6_loop 8 [] None s)
  end.

(** func ParseIP: dispatch on the first '.' or ':' (for ParseIP at netlink/archival-record.go:76) *)
Fixpoint first_sep (s : bytes) : option N :=
  match s with
  | [] => None
  | b :: r => if (bval b =? 46) || (bval b =? 58) then Some (bval b) else first_sep r
  end.
(** func ParseIP, called at netlink/archival-record.go:76 *)
Definition parse_ip (s : bytes) : option bytes :=
  match first_sep s with
  | Some c => if c =? 46 then parse_ipv4 s else parse_ipv6 s
  | None => None
  end.

(** ** IP.String *)

(** The lower-case digits of net.hexString and netip.digits. (for inetdiag/structs.go:104, 156 and 158) *)
Definition hex_digit (n : N) : byte := if n <? 10 then byte_of (48 + n) else byte_of (87 + n).
(** netip.appendHex: no leading zeros (for inetdiag/structs.go:104, 156 and 158) *)
Definition append_hex (x : N) : bytes :=
  (if 4096 <=? x then [hex_digit (x / 4096)] else [])
  ++ (if 256 <=? x then [hex_digit (x / 256 mod 16)] else [])
  ++ (if 16 <=? x then [hex_digit (x / 16 mod 16)] else [])
  ++ [hex_digit (x mod 16)].
(** netip.appendDecimal (for inetdiag/structs.go:104, 156 and 158) *)
Definition string4 (ip : bytes) : bytes :=
  dec (bget 0 ip) ++ [x2e] ++ dec (bget 1 ip) ++ [x2e] ++ dec (bget 2 ip) ++ [x2e] ++ dec (bget 3 ip).

(** Addr.v6u16 for all indices: the 16-bit groups. (for inetdiag/structs.go:104, 156 and 158) *)
Fixpoint groups16 (ip : bytes) : list N :=
  match ip with
  | a :: b :: r => (256 * bval a + bval b) :: groups16 r
  | _ => []
  end.
(** The inner loop of Addr.appendTo6: how many groups are zero from here on.
    (for inetdiag/structs.go:104, 156 and 158) *)
Fixpoint zeros (g : list N) : nat :=
  match g with x :: r => if x =? 0 then S (zeros r) else 0%nat | [] => 0%nat end.
(** The first outer loop: where the first longest run of at least two zeros
    begins, and its length (0 if there is none); [i] is the index of the head.
    (for inetdiag/structs.go:104, 156 and 158) *)
Fixpoint longest_run (i : nat) (g : list N) (best : nat * nat) : nat * nat :=
  match g with
  | [] => best
  | _ :: r => let l := zeros g in
              longest_run (S i) r (if Nat.leb 2 l && Nat.ltb (snd best) l then (i, l) else best)
  end.
(** Groups with colons between them. (for inetdiag/structs.go:104, 156 and 158) *)
Fixpoint colons (l : list bytes) : bytes :=
  match l with
  | [] => []
  | [a] => a
  | a :: r => a ++ x3a :: colons r
  end.
(** The second outer loop of Addr.appendTo6, as the text before and after the
    ellipsis; the zone is always empty. (for inetdiag/structs.go:104, 156 and 158) *)
Definition string6 (ip : bytes) : bytes :=
  let g := map append_hex (groups16 ip) in
  match longest_run 0 (groups16 ip) (0%nat, 0%nat) with
  | (_, O) => colons g
  | (i, l) => colons (firstn i g) ++ [x3a; x3a] ++ colons (skipn (i + l) g)
  end.

(** func (ip IP) String() (for inetdiag/structs.go:104, 156 and 158) *)
Definition ip_string (ip : bytes) : bytes :=
  match ip with
  | [] => [x3c; x6e; x69; x6c; x3e]    (* "<nil>" *)
  | _ =>
    if negb (Nat.eqb (length ip) 4) && negb (Nat.eqb (length ip) 16)
    then x3f :: flat_map (fun b => [hex_digit (bval b / 16); hex_digit (bval b mod 16)]) ip
    else match to4 ip with
         | Some v4 => string4 v4
         | None => string6 ip
         end
  end.
