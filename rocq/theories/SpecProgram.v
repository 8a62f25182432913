(** What a user of the whole program relies on. *)
From stdpp Require Import gmap.
From Coq Require Import NArith ZArith.
From Verif Require Import GoBase GoTime Inetdiag Netlink SpecNetlink SpecCompare SpecConfig SpecAddrText Saver SpecSaver SpecClient SpecJson SpecArchive SpecRecovered.
From Verif Require Collector SpecCollector EventClient.

(** What the saver's actions report to the event server, in order. *)
Definition reports (prefix : bytes) (l : list action) : list report :=
  omap (fun a => match a with
                 | AOpen t k id => Some (Created t (from_cookie prefix k) id)
                 | AClose t k => Some (Deleted t (from_cookie prefix k))
                 | _ => None
                 end) l.

(** These are the blocks of the collector's iterations 0, 1, 2, ... *)
Definition collected (v : Collector.environment) (bs : list block) : Prop :=
  forall i b, bs !! i = Some b -> SpecCollector.block_of v i b.
(** The dumps of every iteration return. *)
Definition answers (v : Collector.environment) : Prop := forall n, exists b, SpecCollector.block_of v n b.

(** The socket ID with the values of this header: ports, addresses in the
    canonical text, interface, and the cookie as a signed number. *)
Definition describes (raw : bytes) (id : sockid) : Prop :=
  sid_sport id = hdr_sport raw /\ sid_dport id = hdr_dport raw /\ sid_if id = hdr_if raw /\
  address_text (hdr_src raw) (sid_src id) /\ address_text (hdr_dst raw) (sid_dst id) /\
  (sid_cookie id mod 18446744073709551616 = Z.of_N (hdr_cookie raw))%Z.
(** A report that says what happened: Created is about one of these records, with
    its time, the UUID of its cookie and its socket; Deleted carries one of
    these times and the UUID of one of these records. *)
Definition truthful (prefix : bytes) (rs : list archival) (ts : list Z) (r : report) : Prop :=
  match r with
  | Created t u id => exists ar, ar ∈ rs /\ t = ar_time ar /\ u = from_cookie prefix (hdr_cookie (header ar)) /\ describes (header ar) id
  | Deleted t u => t ∈ ts /\ exists ar, ar ∈ rs /\ u = from_cookie prefix (hdr_cookie (header ar))
  end.
(** All times that can appear in an event have four-digit years, and the UUIDs are
    of a reasonable length, in UTF-8. *)
Definition tellable (zone : Z -> Z) (w : world) (cf : config) (bs : list block) : Prop :=
  Forall (writable_time zone) (readings (s_log (message_saver_loop w cf bs))) /\ Forall (writable_time zone) (block_times bs) /\
  utf8 (uuid_prefix w) /\ (N.of_nat (length (uuid_prefix w)) <= 9000)%N.
(** The calls of a handler about one UUID: true is Open, false is Close. *)
Definition about (u : bytes) (cs : list EventClient.call) : list bool :=
  omap (fun c => match c with
                 | EventClient.COpen _ u' _ => if bytes_eqb u' u then Some true else None
                 | EventClient.CClose _ u' => if bytes_eqb u' u then Some false else None
                 end) cs.
