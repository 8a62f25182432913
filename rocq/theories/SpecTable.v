(** Specification of csvtool's table: CSV as text (RFC 4180), and the columns that a
    reader of the table expects. *)
From Coq Require Import Strings.String List NArith ZArith Bool.
From Verif Require Import GoBase Layout Inetdiag SpecNetlink SpecAddrText Snapshot SpecSnapshot SpecCsv SpecDecode.
Import ListNotations.
Local Open Scope list_scope.

(** ** The text *)
(** A cell between quotation marks: each mark inside is doubled. *)
Inductive doubled : bytes -> bytes -> Prop :=
| do_nil : doubled [] []
| do_mark c t : doubled c t -> doubled (x22 :: c) (x22 :: x22 :: t)
| do_other b c t : b <> x22 -> doubled c t -> doubled (b :: c) (b :: t).
(** The text of a cell: itself, unless it has commas, marks or ends of lines. *)
Inductive cell_text : bytes -> bytes -> Prop :=
| ce_plain c : Forall (fun b => b <> x2c /\ b <> x22 /\ b <> x0d /\ b <> x0a) c -> cell_text c c
| ce_quoted c t : doubled c t -> cell_text c (x22 :: t ++ [x22]).
(** A line: at least one cell, commas between them. *)
Inductive line_text : list bytes -> bytes -> Prop :=
| li_last c t : cell_text c t -> line_text [c] (t ++ [x0a])
| li_more c t l u : cell_text c t -> line_text l u -> line_text (c :: l) (t ++ x2c :: u).
(** A table: lines. *)
Inductive table_text : list (list bytes) -> bytes -> Prop :=
| ta_nil : table_text [] []
| ta_line l t rows u : line_text l t -> table_text rows u -> table_text (l :: rows) (t ++ u).

(** ** The columns *)
(** An integer in decimal, without leading zeros *)
Definition integer_text (c : bytes) (z : Z) : Prop :=
  (0 <= z)%Z /\ numeral c (Z.to_N z) \/ (z < 0)%Z /\ exists t, c = x2d :: t /\ numeral t (Z.to_N (- z)).
(** Bytes as a number, the first byte being the highest, or the lowest *)
Definition big (l : bytes) : N := fold_left (fun a b => 256 * a + bval b)%N l 0%N.
Definition little (l : bytes) : N := fold_right (fun b a => bval b + 256 * a)%N 0%N l.
(** A number; it may be left out if it is zero. *)
Definition number_or_blank (n : N) (c : bytes) : Prop := numeral c n \/ n = 0%N /\ c = [].
(** A part of the message header: blank if there is no header. *)
Definition header_cell (P : idm -> bytes -> Prop) (s : snapshot) (c : bytes) : Prop :=
  match sn_idm s with None => c = [] | Some m => P m c end.
(** A field of a structure: blank if there is no such structure, and otherwise the
    value of the field. *)
Definition field_cell (sel : snapshot -> option fields) (f : string) (s : snapshot) (c : bytes) : Prop :=
  match sel s with None => c = [] | Some v => exists z, In (f, VInt z) v /\ integer_text c z end.
(** The columns of one structure, named by a prefix and the field *)
Definition structure_columns (prefix : string) (sel : snapshot -> option fields) (tb : list field_spec) : list (string * (snapshot -> bytes -> Prop)) :=
  map (fun f => ((prefix ++ fst (fst (fst f)))%string, field_cell sel (fst (fst (fst f))))) tb.

Local Open Scope string_scope.
(** The names that one expects, and what the cells below them say *)
Definition expected_columns : list (string * (snapshot -> bytes -> Prop)) :=
  [("Timestamp", fun s c => stamp c (sn_time s));
   ("Observed", fun s c => numeral c (sn_observed s));
   ("NotFullyParsed", fun s c => number_or_blank (sn_notparsed s) c);
   ("IDM.Family", header_cell (fun m c => numeral c (idiag_family m)));
   ("IDM.State", header_cell (fun m c => numeral c (idiag_state m)));
   ("IDM.Timer", header_cell (fun m c => numeral c (idiag_timer m)));
   ("IDM.Retrans", header_cell (fun m c => numeral c (idiag_retrans m)));
   ("IDM.SockID.SPort", header_cell (fun m c => numeral c (big (b_sport (idiag_id m)))));
   ("IDM.SockID.DPort", header_cell (fun m c => numeral c (big (b_dport (idiag_id m)))));
   ("IDM.SockID.Src", header_cell (fun m c => address_text (b_src (idiag_id m)) c));
   ("IDM.SockID.Dst", header_cell (fun m c => address_text (b_dst (idiag_id m)) c));
   ("IDM.SockID.Interface", header_cell (fun m c => numeral c (big (b_if (idiag_id m)))));
   ("IDM.SockID.Cookie", header_cell (fun m c => hex_numeral c (little (b_cookie (idiag_id m)))));
   ("IDM.Expires", header_cell (fun m c => numeral c (idiag_expires m)));
   ("IDM.Rqueue", header_cell (fun m c => numeral c (idiag_rqueue m)));
   ("IDM.Wqueue", header_cell (fun m c => numeral c (idiag_wqueue m)));
   ("IDM.UID", header_cell (fun m c => numeral c (idiag_uid m)));
   ("IDM.Inode", header_cell (fun m c => numeral c (idiag_inode m)));
   ("CongestionAlgorithm", fun s c => c = sn_cong s);
   ("TOS", fun s c => number_or_blank (sn_tos s) c);
   ("TClass", fun s c => number_or_blank (sn_tclass s) c);
   ("ClassID", fun s c => number_or_blank (sn_classid s) c);
   ("Shutdown", fun s c => number_or_blank (sn_shutdown s) c);
   ("Protocol", fun s c => number_or_blank (sn_protocol s) c);
   ("Mark", fun s c => number_or_blank (sn_mark s) c)]
  ++ structure_columns "TCP." sn_tcp tcp_table
  ++ structure_columns "MemInfo." sn_mem mem_table
  ++ structure_columns "SKMemInfo." sn_skmem skmem_table
  ++ structure_columns "Vegas." sn_vegas vegas_table
  ++ structure_columns "DCTCP." sn_dctcp dctcp_table
  ++ structure_columns "BBR." sn_bbr bbr_table.
(** The names that the columns really have: two of them are wrong. *)
Definition actual_name (n : string) : string :=
  if String.eqb n "TCP.LastAckRecv" then "TCP.LastDataRecv"
  else if String.eqb n "SKMemInfo.Sndbuf" then "SKMemInfo.Sndbug"
  else n.
Local Close Scope string_scope.
(** The row that shows a snapshot *)
Definition shown_in (s : snapshot) (cells : list bytes) : Prop := Forall2 (fun col c => snd col s c) expected_columns cells.
Definition expected_header : list bytes := map (fun col => str (fst col)) expected_columns.
Definition actual_header : list bytes := map (fun col => str (actual_name (fst col))) expected_columns.

(** The same, but for bytes of addresses that have the same text *)
Definition same_contents (s s' : snapshot) : Prop :=
  sn_time s = sn_time s' /\ sn_observed s = sn_observed s' /\ sn_notparsed s = sn_notparsed s' /\ sn_cong s = sn_cong s' /\
  sn_tos s = sn_tos s' /\ sn_tclass s = sn_tclass s' /\ sn_classid s = sn_classid s' /\ sn_shutdown s = sn_shutdown s' /\
  sn_protocol s = sn_protocol s' /\ sn_mark s = sn_mark s' /\
  sn_tcp s = sn_tcp s' /\ sn_mem s = sn_mem s' /\ sn_skmem s = sn_skmem s' /\ sn_vegas s = sn_vegas s' /\ sn_dctcp s = sn_dctcp s' /\ sn_bbr s = sn_bbr s' /\
  match sn_idm s, sn_idm s' with
  | None, None => True
  | Some m, Some m' =>
      idiag_family m = idiag_family m' /\ idiag_state m = idiag_state m' /\ idiag_timer m = idiag_timer m' /\ idiag_retrans m = idiag_retrans m' /\
      idiag_expires m = idiag_expires m' /\ idiag_rqueue m = idiag_rqueue m' /\ idiag_wqueue m = idiag_wqueue m' /\
      idiag_uid m = idiag_uid m' /\ idiag_inode m = idiag_inode m' /\ get_sockid (idiag_id m) = get_sockid (idiag_id m')
  | _, _ => False
  end.
(** The structures of a snapshot have the fields that the kernel's tables name. *)
Definition has_fields (tb : list field_spec) (o : option fields) : Prop :=
  forall v, o = Some v -> exists raw, v = read_table tb raw.
Definition well_formed (s : snapshot) : Prop :=
  has_fields tcp_table (sn_tcp s) /\ has_fields mem_table (sn_mem s) /\ has_fields skmem_table (sn_skmem s) /\
  has_fields vegas_table (sn_vegas s) /\ has_fields dctcp_table (sn_dctcp s) /\ has_fields bbr_table (sn_bbr s) /\
  forall m, sn_idm s = Some m -> exists raw, m = header_at raw.

(** The structures of the kernel: prefix of the columns, type of the attribute, and table *)
Definition kernel_structures : list (string * nat * list field_spec) :=
  [("TCP."%string, 2, tcp_table); ("MemInfo."%string, 1, mem_table); ("SKMemInfo."%string, 7, skmem_table); ("Vegas."%string, 3, vegas_table);
   ("DCTCP."%string, 9, dctcp_table); ("BBR."%string, 16, bbr_table)].
(** The number that a field of an attribute holds *)
Definition held (raw : bytes) (f : field_spec) : Z :=
  match f with (_, o, w, sgn) => if sgn then signed_at raw o w else Z.of_N (number_at raw o w) end.
