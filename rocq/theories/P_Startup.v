(** C63: the start of main, and the file of the event socket. *)
From Coq Require Import Strings.String List Arith Bool Lia.
From Verif Require Import GoBase GoBaseFacts Startup SpecStartup StartupFacts.
Import ListNotations.
Local Open Scope list_scope.

(** Names that begin with a slash are paths, others are names in the directory
    given: what [resolve] stands for in the theorems below. *)
Theorem C63_paths : forall cwd name p, name <> [] -> (resolve cwd name = p <-> place cwd name p).
Proof.
  intros cwd name p H. destruct name as [|c r]; [contradiction|]. unfold resolve.
  destruct (Byte.eqb c x2f) eqn:E.
  - apply Byte.byte_dec_bl in E as ->. split; [intros <-; constructor|]. intros P. inversion P; [reflexivity|contradiction].
  - assert (c <> x2f) as N by (intros ->; discriminate E). split; [intros <-; constructor; exact N|]. intros P. inversion P; subst; [contradiction|reflexivity].
Qed.
Print Assumptions C63_paths.
Example c63_paths_case : place (str "/var/spool") (str "tcpinfo.sock") (str "/var/spool/tcpinfo.sock") /\ place (str "/var/spool") (str "/run/x") (str "/run/x").
Proof. split; apply C63_paths; try discriminate; reflexivity. Qed.

(** When the collector is started, the current directory is that of -output (if
    given) and, if -tcpinfo.eventsocket is given, a client that dials that name
    (from that directory, if it is relative) reaches this process. *)
Theorem C63_started : forall a cwd output enable name m cwd' srv m', fresh m ->
  main_start a cwd output enable name m = (Started cwd' srv, m') ->
  cwd' = match output with [] => cwd | _ => resolve cwd output end /\
  match name with
  | [] => srv = None
  | _ => exists i, srv = Some i /\ dial (resolve cwd' name) m' = Some i /\ ~ In i (listening m)
  end.
Proof.
  intros a cwd output enable name m cwd' srv m' F. unfold main_start.
  assert (E : forall c, (match output with [] => Some cwd | _ => if mkdir_all_ok a then if chdir_ok a then Some (resolve cwd output) else None else None end) = Some c ->
    c = match output with [] => cwd | _ => resolve cwd output end).
  { intros c. destruct output; [congruence|]. destruct (mkdir_all_ok a), (chdir_ok a); congruence. }
  destruct (match output with [] => Some cwd | _ => _ end) as [c|]; [|discriminate]. rewrite <- (E c eq_refl). clear E.
  destruct (negb (metrics_ok a)); [discriminate|].
  assert (T : forall b m1, (if enable then if create_ok a then if trace_ok a then (true, put (resolve c (str "trace")) (Regular []) m) else (false, put (resolve c (str "trace")) (Regular []) m) else (false, m) else (true, m)) = (b, m1) ->
    listening m1 = listening m /\ next_listener m1 = next_listener m).
  { intros b m1. destruct enable, (create_ok a), (trace_ok a); intros [= <- <-]; split; reflexivity. }
  cbn zeta. destruct (if enable then _ else _) as [b m1] eqn:X. destruct (T b m1 eq_refl) as [L N]. clear T X.
  destruct b; [|discriminate]. destruct name as [|x name]; [intros [= <- <- <-]; split; reflexivity|].
  destruct (listen_cases (bind_ok a) (resolve c (x :: name)) m1) as [(m2 & -> & A & L2 & N2 & _)|(m2 & -> & _)]; [|discriminate].
  intros [= <- <- <-]. split; [reflexivity|]. exists (next_listener m1). split; [reflexivity|]. split.
  - unfold dial. rewrite A, L2. cbn. now rewrite Nat.eqb_refl.
  - rewrite N. intros H. apply F in H. lia.
Qed.
Print Assumptions C63_started.

(** It is started exactly if everything that was asked for works; a stale socket,
    a file or an empty directory at the path of the event socket does not
    matter. *)
Theorem C63_refuses : forall a cwd output enable name m,
  (exists cwd' srv m', main_start a cwd output enable name m = (Started cwd' srv, m')) <->
  (output <> [] -> mkdir_all_ok a = true /\ chdir_ok a = true) /\ metrics_ok a = true /\
  (enable = true -> create_ok a = true /\ trace_ok a = true) /\
  (name <> [] -> bind_ok a = true /\
     let cwd' := match output with [] => cwd | _ => resolve cwd output end in
     (enable = true /\ resolve cwd' name = resolve cwd' (str "trace") \/ removable (at_path m (resolve cwd' name)) = true)).
Proof.
  intros a cwd output enable name m. unfold main_start.
  set (cwd1 := match output with [] => cwd | _ => resolve cwd output end).
  assert (E : (match output with [] => Some cwd | _ => if mkdir_all_ok a then if chdir_ok a then Some (resolve cwd output) else None else None end) =
    if (match output with [] => true | _ => mkdir_all_ok a && chdir_ok a end) then Some cwd1 else None).
  { unfold cwd1. destruct output; [reflexivity|]. destruct (mkdir_all_ok a), (chdir_ok a); reflexivity. }
  assert (O : (match output with [] => true | _ => mkdir_all_ok a && chdir_ok a end) = true <-> (output <> [] -> mkdir_all_ok a = true /\ chdir_ok a = true)).
  { destruct output; [split; [congruence|reflexivity]|]. rewrite andb_true_iff. split; [auto|]. intros H. apply H. discriminate. }
  rewrite E. clearbody cwd1. destruct (match output with [] => true | _ => _ end).
  2:{ split; [intros (? & ? & ? & H); discriminate H|]. intros (H & _). apply O in H. discriminate H. }
  assert (O1 := proj1 O eq_refl). clear E O.
  destruct (metrics_ok a); cbn [negb]; [|split; [intros (? & ? & ? & H); discriminate H|intros (_ & H & _); discriminate H]].
  cbn zeta.
  set (m1 := if enable then put (resolve cwd1 (str "trace")) (Regular []) m else m).
  assert (T : (if enable then if create_ok a then if trace_ok a then (true, put (resolve cwd1 (str "trace")) (Regular []) m) else (false, put (resolve cwd1 (str "trace")) (Regular []) m) else (false, m) else (true, m)) =
    (if enable then create_ok a && trace_ok a else true, if enable then if create_ok a then m1 else m else m1)).
  { unfold m1. destruct enable, (create_ok a), (trace_ok a); reflexivity. }
  rewrite T. clear T.
  assert (B : (if enable then create_ok a && trace_ok a else true) = true <-> (enable = true -> create_ok a = true /\ trace_ok a = true)).
  { destruct enable; [rewrite andb_true_iff; split; [auto|intros H; apply H; reflexivity]|split; [discriminate|reflexivity]]. }
  assert (R : removable (at_path m1 (resolve cwd1 name)) = true <-> enable = true /\ resolve cwd1 name = resolve cwd1 (str "trace") \/ removable (at_path m (resolve cwd1 name)) = true).
  { unfold m1. destruct enable; [|split; [auto|intros [[H _]|H]; [discriminate H|exact H]]].
    destruct (bytes_eqb (resolve cwd1 name) (resolve cwd1 (str "trace"))) eqn:Q.
    - apply bytes_eqb_eq in Q. rewrite Q, at_put. split; [auto|reflexivity].
    - assert (Q' : resolve cwd1 name <> resolve cwd1 (str "trace")) by (intros X; apply bytes_eqb_eq in X; congruence).
      rewrite at_put_other by exact Q'. split; [auto|]. intros [[_ H]|H]; [contradiction|exact H]. }
  destruct (if enable then create_ok a && trace_ok a else true) eqn:Bt.
  2:{ split; [intros (? & ? & ? & H); discriminate H|]. intros (_ & _ & H & _). apply B in H. discriminate H. }
  assert (M : (if enable then if create_ok a then m1 else m else m1) = m1).
  { destruct enable; [|reflexivity]. apply andb_prop in Bt as [-> _]. reflexivity. }
  rewrite M. clear M. pose proof (proj1 B eq_refl) as B1.
  destruct name as [|x name].
  { split; [|eauto]. intros _. split; [exact O1|]. split; [reflexivity|]. split; [exact B1|]. intros H. now elim H. }
  destruct (listen_cases (bind_ok a) (resolve cwd1 (x :: name)) m1) as [(m2 & -> & _ & _ & _ & Ha & Hr)|(m2 & Hl & _)].
  - split; [|eauto]. intros _. split; [exact O1|]. split; [reflexivity|]. split; [exact B1|]. intros _. split; [exact Ha|]. now apply R.
  - rewrite Hl. split; [intros (? & ? & ? & H); discriminate H|]. intros (_ & _ & _ & H). destruct H as [H1 H2]; [discriminate|]. apply R in H2.
    destruct (listen_ok (resolve cwd1 (x :: name)) m1 H2) as (m3 & H3 & _). rewrite H1 in Hl. congruence.
Qed.
Print Assumptions C63_refuses.

(** Nothing else on the machine is touched. *)
Theorem C63_untouched : forall a cwd output enable name m r m' q,
  main_start a cwd output enable name m = (r, m') ->
  let cwd' := match output with [] => cwd | _ => resolve cwd output end in
  (name <> [] -> q <> resolve cwd' name) -> (enable = true -> q <> resolve cwd' (str "trace")) -> at_path m' q = at_path m q.
Proof.
  intros a cwd output enable name m r m' q. unfold main_start. cbn zeta.
  set (cwd1 := match output with [] => cwd | _ => resolve cwd output end).
  assert (E : (match output with [] => Some cwd | _ => if mkdir_all_ok a then if chdir_ok a then Some (resolve cwd output) else None else None end) =
    if (match output with [] => true | _ => mkdir_all_ok a && chdir_ok a end) then Some cwd1 else None).
  { unfold cwd1. destruct output; [reflexivity|]. destruct (mkdir_all_ok a), (chdir_ok a); reflexivity. }
  rewrite E. clearbody cwd1. clear E. destruct (match output with [] => true | _ => _ end); [|now intros [= <- <-]].
  destruct (negb (metrics_ok a)); [now intros [= <- <-]|]. intros H Hn Ht.
  assert (T : forall b m1, (if enable then if create_ok a then if trace_ok a then (true, put (resolve cwd1 (str "trace")) (Regular []) m) else (false, put (resolve cwd1 (str "trace")) (Regular []) m) else (false, m) else (true, m)) = (b, m1) ->
    at_path m1 q = at_path m q).
  { intros b m1. destruct enable, (create_ok a), (trace_ok a); intros [= <- <-]; try reflexivity; apply at_put_other, Ht; reflexivity. }
  destruct (if enable then _ else _) as [b m1]. specialize (T b m1 eq_refl). rewrite <- T. destruct b; [|congruence].
  destruct name as [|x name]; [congruence|]. assert (Hq : q <> resolve cwd1 (x :: name)) by (apply Hn; discriminate).
  destruct (bind_ok a), (removable (at_path m1 (resolve cwd1 (x :: name)))) eqn:R.
  - destruct (listen_ok _ _ R) as (m2 & X & _ & _ & _ & K). rewrite X in H. injection H as <- <-. now apply K.
  - destruct (listen_fails true _ _ (or_intror R)) as (m2 & X & _ & _ & _ & K). rewrite X in H. injection H as <- <-. now apply K.
  - destruct (listen_fails false (resolve cwd1 (x :: name)) m1 (or_introl eq_refl)) as (m2 & X & _ & _ & _ & K). rewrite X in H. injection H as <- <-. now apply K.
  - destruct (listen_fails false (resolve cwd1 (x :: name)) m1 (or_introl eq_refl)) as (m2 & X & _ & _ & _ & K). rewrite X in H. injection H as <- <-. now apply K.
Qed.
Print Assumptions C63_untouched.

(** Whatever was left at the path by instances that ran before or still run, a new
    instance starts and is the one that is reached. *)
Theorem C63_restart : forall p n hs, removable n = true -> forallb mild hs = true ->
  exists i m', listen true p (history p n hs) = (Some i, m') /\ dial p m' = Some i /\ ~ In i (listening (history p n hs)).
Proof.
  intros p n hs Hn Hh. pose proof (history_removable p n hs Hn Hh) as R.
  destruct (listen_ok p _ R) as (m' & H1 & H2 & H3 & _). exists (next_listener (history p n hs)), m'. split; [exact H1|]. split.
  - unfold dial. rewrite H2, H3. cbn. now rewrite Nat.eqb_refl.
  - intros H. apply history_fresh in H. lia.
Qed.
Print Assumptions C63_restart.

(** Only the instance that began to listen last can be reached. *)
Theorem C63_only_latest : forall p n hs i, (forall k, n <> Socket k) -> forallb honest hs = true ->
  dial p (history p n hs) = Some i -> S i = next_listener (history p n hs).
Proof. intros p n hs i Hn Hh H. apply dial_listening in H as [_ H]. now apply (history_latest p n hs Hn Hh). Qed.
Print Assumptions C63_only_latest.

(** It is reached until it closes the listener or ends, if no other instance
    starts or closes its listener meanwhile. *)
Theorem C63_reached : forall p n h1 i m' h2, listen true p (history p n h1) = (Some i, m') -> forallb (harmless i) h2 = true ->
  dial p (history p n (h1 ++ Listens true :: h2)) = Some i.
Proof.
  intros p n h1 i m' h2 H Hh. rewrite history_app. cbn [fold_left happen]. apply reached_stays; [|exact Hh]. rewrite H. cbn [snd].
  destruct (listen_cases true p (history p n h1)) as [(m2 & E & A & L & _)|(m2 & E & _)]; rewrite E in H; [|discriminate H]. injection H as <- <-.
  unfold dial. rewrite A, L. cbn. now rewrite Nat.eqb_refl.
Qed.
Print Assumptions C63_reached.

(** After that it is never reached again. *)
Theorem C63_gone : forall p n h1 i h h2, i < next_listener (history p n h1) -> h = Closes i \/ h = Dies i ->
  dial p (history p n (h1 ++ h :: h2)) <> Some i.
Proof.
  intros p n h1 i h h2 N Hh. rewrite history_app. cbn [fold_left]. intros D. apply dial_listening in D as [D _]. revert D.
  assert (X : ~ In i (listening (happen p (history p n h1) h)) /\ i < next_listener (happen p (history p n h1) h)).
  { destruct Hh as [->| ->]; cbn [happen].
    - split; [apply closed_gone|]. unfold close_listener. destruct (existsb _ _); [|exact N]. destruct (at_path (history p n h1) p); exact N.
    - split; [apply died_gone|exact N]. }
  apply gone_stays; apply X.
Qed.
Print Assumptions C63_gone.

(** ** What is not so *)
(** A file of that name, whatever is in it, is deleted. *)
Theorem C63_file_refuted : ~ (forall p m data r m', at_path m p = Regular data -> listen true p m = (r, m') -> at_path m' p = Regular data).
Proof.
  intros H. set (p := str "/data/events"). set (m := put p (Regular (str "precious")) (mkmachine (fun _ => Nothing) [] 0)).
  specialize (H p m (str "precious") _ _ eq_refl eq_refl). vm_compute in H. discriminate H.
Qed.
Print Assumptions C63_file_refuted.
(** An instance that runs and has not closed its listener cannot be reached once
    a second one has been started with the same name. *)
Theorem C63_older_refuted : ~ (forall p hs i, forallb honest hs = true -> forallb mild hs = true -> In i (listening (history p Nothing hs)) ->
  (forall n, ~ In (Puts n) hs) -> dial p (history p Nothing hs) = Some i).
Proof.
  intros H. specialize (H (str "/s") [Listens true; Listens true] 0 eq_refl eq_refl ltac:(vm_compute; auto)).
  assert (K : dial (str "/s") (history (str "/s") Nothing [Listens true; Listens true]) = Some 0) by (apply H; intros n [X|[X|[]]]; discriminate X).
  vm_compute in K. discriminate K.
Qed.
Print Assumptions C63_older_refuted.
(** Nor can the second one when the first one closes its listener: it removes
    the socket of the second. *)
Theorem C63_newer_refuted : ~ (forall p hs i, forallb honest hs = true -> forallb mild hs = true -> In i (listening (history p Nothing hs)) ->
  S i = next_listener (history p Nothing hs) -> (forall n, ~ In (Puts n) hs) -> dial p (history p Nothing hs) = Some i).
Proof.
  intros H. specialize (H (str "/s") [Listens true; Listens true; Closes 0] 1 eq_refl eq_refl ltac:(vm_compute; auto) eq_refl).
  assert (K : dial (str "/s") (history (str "/s") Nothing [Listens true; Listens true; Closes 0]) = Some 1) by (apply H; intros n [X|[X|[X|[]]]]; discriminate X).
  vm_compute in K. discriminate K.
Qed.
Print Assumptions C63_newer_refuted.
(** After main has returned the socket may still be there. *)
Theorem C63_left_refuted : ~ (forall p hs, forallb honest hs = true -> forallb mild hs = true -> listening (history p Nothing hs) = [] ->
  (forall n, ~ In (Puts n) hs) -> at_path (history p Nothing hs) p = Nothing).
Proof.
  intros H. specialize (H (str "/s") [Listens true; Dies 0] eq_refl eq_refl eq_refl).
  assert (K : at_path (history (str "/s") Nothing [Listens true; Dies 0]) (str "/s") = Nothing) by (apply H; intros n [X|[X|[]]]; discriminate X).
  vm_compute in K. discriminate K.
Qed.
Print Assumptions C63_left_refuted.

Definition works : answers := mkans true true true true true true.
Example c63_case : let m := mkmachine (fun q => if bytes_eqb q (str "/var/spool/tcpinfo/events.sock") then Socket 3 else Nothing) [] 4 in
  fresh m /\ exists m', main_start works (str "/") (str "/var/spool/tcpinfo") true (str "events.sock") m = (Started (str "/var/spool/tcpinfo") (Some 4), m') /\
  dial (str "/var/spool/tcpinfo/events.sock") m' = Some 4 /\ at_path m' (str "/events.sock") = Nothing /\ at_path m' (str "/var/spool/tcpinfo/trace") = Regular [].
Proof. split; [intros i []|]. eexists. split; [reflexivity|]. vm_compute. repeat split. Qed.
Example c63_dies : fst (main_start works (str "/") [] false (str "/etc") (mkmachine (fun q => Directory false) [] 0)) = Died.
Proof. reflexivity. Qed.
Example c63_history : forallb mild [Listens true; Dies 0; Puts (Regular (str "x")); Listens true; Listens false; Listens true; Dies 1] = true /\
  dial (str "/s") (history (str "/s") Nothing [Listens true; Dies 0; Puts (Regular (str "x")); Listens true; Listens false; Listens true; Dies 1]) = Some 2.
Proof. vm_compute. split; reflexivity. Qed.
