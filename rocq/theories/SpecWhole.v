(** What a user of the program and its output directory relies on. *)
From Coq Require Import Strings.String.
From stdpp Require Import gmap.
From Coq Require Import NArith ZArith.
From Verif Require Import GoBase GoTime Inetdiag Netlink SpecNetlink SpecCompare Saver SpecSaver System SpecSystem SpecJson SpecArchive SpecRecovered
  SmallFiles SpecPipeline SpecConfig Flags SpecFlags SpecDisk.
Local Open Scope list_scope.

(** The words of -exclude-dstip and -exclude-srcport, or of the variables of the
    environment that stand for them (see C70). *)
Definition told_to_exclude (lib : library) (args : list bytes) (env : bytes -> option bytes) (ips ports : list bytes) : Prop :=
  exists occ su1 ts1 wss1 su2 ts2 wss2, command lib args occ /\
    texts occ env (str "exclude-dstip") (str "EXCLUDE_DSTIP") su1 ts1 /\ Forall2 comma_list ts1 wss1 /\ ips = concat wss1 /\
    texts occ env (str "exclude-srcport") (str "EXCLUDE_SRCPORT") su2 ts2 /\ Forall2 comma_list ts2 wss2 /\ ports = concat wss2.

(** What is asked of the machine and of the kernel: the conditions of C39, C52 and
    C72, each of which is necessary for something (see there). *)
Record usual (zone : Z -> Z) (w : world) (cf : config) (bs : list block) : Prop := mkusual {
  u_order : fair_order w;
  u_parses : Forall (parses cf) bs;
  u_comparable : all_comparable cf bs;
  u_times : Forall (writable_time zone) (zero_time :: block_times bs);
  u_host : utf8 (uuid_prefix w) /\ (N.of_nat (length (uuid_prefix w)) <= 10000)%N;
  u_sizes : Forall (messages_up_to 48000) bs;
  u_named : forall t m, received bs t m -> named_congestion m;
  u_length : (Z.of_nat (length (log_of w cf bs)) <= 9223372036854775807)%Z;
  u_once : NoDup (openings (log_of w cf bs)) }.
