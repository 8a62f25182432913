(** Schedules of the whole program that can be computed, for the examples. *)
From stdpp Require Import gmap relations.
From Coq Require Import NArith ZArith Lia.
From Verif Require Import GoBase Inetdiag Netlink Cache Saver System SystemHidden Program.
From Verif Require EventServer Collector.

(** main; the saver (None) or a marshaller; notifyClients; Serve; a client that
    connects; the cleanup goroutine; the end of ctx *)
Inductive actor := Main | Worker (who : option nat) | Notify | Serving | Dial | Cleanup | Cancel.

Section Runs.
Variables (w : world) (cf : config) (cap : nat) (anon : bytes -> bytes) (line : archival -> bytes) (hline : metadata -> bytes).
Variables (v : Collector.environment) (reps : Z) (on : bool) (marshal : EventServer.flow_event -> option bytes).
Notation work := (work w cf cap anon line hline v reps on).
Notation elsewhere := (elsewhere on marshal).
Notation moves := (moves w cf cap anon line hline v reps on marshal).
Notation possible := (possible w cf cap anon line hline v reps on marshal).

Definition main_move (g : prog) : option prog :=
  match g_main g with
  | MLoop n =>
      if goes_on reps n g then match Collector.collect v n with Ret (b, _) => Some (with_main (MSend n b) g) | _ => None end
      else Some (with_main MClose g)
  | MSend n b =>
      if Nat.ltb (length (g_chan g)) svr_capacity
      then Some (with_main (MLoop (S n)) (with_chan (g_chan g ++ [b]) (g_closed g) (g_sent g ++ [b]) g)) else None
  | MClose => Some (with_main MWait (with_chan (g_chan g) true (g_sent g) g))
  | MWait => if Nat.eqb (y_wg (g_sys g)) 0 then Some (with_main MExit g) else None
  | MExit => None
  end.
Lemma main_move_work g g' : main_move g = Some g' -> work g g'.
Proof.
  unfold main_move. destruct (g_main g) as [n|n b| | |] eqn:M.
  - destruct (goes_on reps n g) eqn:G.
    + destruct (Collector.collect v n) as [[b c]|e| |] eqn:C; try discriminate. intros [= <-]. by eapply k_collect.
    + intros [= <-]. by eapply k_return.
  - destruct (Nat.ltb_spec (length (g_chan g)) svr_capacity); [|discriminate]. intros [= <-]. by eapply k_send.
  - intros [= <-]. by apply k_close.
  - destruct (Nat.eqb_spec (y_wg (g_sys g)) 0); [|discriminate]. intros [= <-]. by apply k_exit.
  - discriminate.
Qed.

Definition sys_move (who : option nat) (g : prog) : option prog :=
  match move w cf cap anon line hline who (g_sys g) with
  | None => None
  | Some y =>
      match submits w on (g_sys g) y with
      | None => Some (with_sys (g_ended g) y g)
      | Some e =>
          if EventServer.closed (g_srv g) then Some (with_srv (EventServer.set_crashed (g_srv g)) g)
          else if Nat.ltb (length (EventServer.buf (g_srv g))) EventServer.capacity
               then Some (with_srv (EventServer.add_log (EventServer.OSubmit e) (EventServer.set_buf (EventServer.buf (g_srv g) ++ [e]) (g_srv g))) (with_sys (g_ended g) y g))
               else None
      end
  end.
Lemma sys_move_work who g g' : sys_move who g = Some g' -> work g g'.
Proof.
  unfold sys_move. destruct (move w cf cap anon line hline who (g_sys g)) as [y|] eqn:M; [|discriminate]. apply move_step in M.
  destruct (submits w on (g_sys g) y) as [e|] eqn:E; [|intros [= <-]; by eapply k_sys].
  destruct (EventServer.closed (g_srv g)) eqn:C; [intros [= <-]; by eapply k_panic|].
  destruct (Nat.ltb_spec (length (EventServer.buf (g_srv g))) EventServer.capacity); [|discriminate]. intros [= <-]. by eapply k_event.
Qed.
Definition receivingb (g : prog) : bool :=
  negb (g_ended g) && (match y_jobs (g_sys g) with [] => true | _ => false end) && Nat.eqb (y_pc (g_sys g)) (length (s_log (y_saver (g_sys g)))).
Definition saver_main (g : prog) : option prog :=
  if receivingb g then
    match g_chan g with
    | b :: bs => Some (with_chan bs (g_closed g) (g_sent g) (with_sys false (next_job (JBlock b) (g_sys g)) g))
    | [] => if g_closed g then Some (with_sys true (next_job JShutdown (g_sys g)) g) else None
    end
  else sys_move None g.
Lemma saver_main_work g g' : saver_main g = Some g' -> work g g'.
Proof.
  unfold saver_main. destruct (receivingb g) eqn:R; [|apply sys_move_work].
  assert (Rc : receiving g).
  { unfold receivingb in R. apply andb_prop in R as [R R3]. apply andb_prop in R as [R1 R2]. split; [by apply negb_true_iff|]. split; [|by apply Nat.eqb_eq].
    destruct (y_jobs (g_sys g)); [done|discriminate R2]. }
  destruct (g_chan g) as [|b bs] eqn:C.
  - destruct (g_closed g) eqn:Cl; [|discriminate]. intros [= <-]. by apply k_end.
  - intros [= <-]. by eapply k_block.
Qed.

Definition hung_up (c : nat) (l : list EventServer.obs) : bool :=
  existsb (fun o => match o with EventServer.OHangup c' => Nat.eqb c' c | _ => false end) l.
Lemma hung_up_false c l : hung_up c l = false -> EventServer.OHangup c ∉ l.
Proof.
  intros H Hin. assert (E : hung_up c l = true); [|congruence]. apply existsb_exists. exists (EventServer.OHangup c).
  split; [by apply elem_of_list_In|]. apply Nat.eqb_refl.
Qed.
Definition srv_move (a : actor) (s : EventServer.state) : option EventServer.state :=
  match a with
  | Notify =>
      match EventServer.np s with
      | EventServer.NTest => Some (EventServer.set_np (if EventServer.cancelled s then EventServer.NEnd else EventServer.NRecv) s)
      | EventServer.NRecv =>
          match EventServer.buf s with
          | e :: r => Some (match marshal e with
                            | Some d => EventServer.set_np (EventServer.NLock d) (EventServer.set_buf r s)
                            | None => EventServer.set_np EventServer.NTest (EventServer.set_buf r s) end)
          | [] => None
          end
      | EventServer.NLock d => Some (EventServer.add_log (EventServer.OBroadcast (d ++ [x0a])) (EventServer.set_np (EventServer.NSend (d ++ [x0a]) (elements (EventServer.clients s))) s))
      | EventServer.NSend l (c :: todo) =>
          if hung_up c (EventServer.log s) then None
          else Some (EventServer.add_log (EventServer.OWrite c l None) (EventServer.set_np (EventServer.NSend l todo) s))
      | EventServer.NSend l [] => Some (EventServer.set_np EventServer.NTest s)
      | EventServer.NEnd => None
      end
  | Serving =>
      match EventServer.sp s with
      | EventServer.STest => Some (EventServer.set_sp (if EventServer.cancelled s then EventServer.SEnd else EventServer.SAccept) s)
      | EventServer.SAdd c =>
          match EventServer.np s with
          | EventServer.NSend _ _ => None
          | _ => Some (EventServer.add_log (EventServer.OAdd c) (EventServer.set_sp EventServer.STest (EventServer.set_clients ({[c]} ∪ EventServer.clients s) s)))
          end
      | _ => None
      end
  | Cleanup =>
      match EventServer.cp s with
      | EventServer.CWait => if EventServer.cancelled s then Some (EventServer.set_cp EventServer.CListener s) else None
      | EventServer.CListener => Some (EventServer.add_log EventServer.OCloseListener (EventServer.set_cp EventServer.CChan (EventServer.set_lclosed s)))
      | EventServer.CChan => Some (EventServer.add_log EventServer.OCloseChan (EventServer.set_cp EventServer.CEnd (EventServer.set_closed s)))
      | EventServer.CEnd => None
      end
  | _ => None
  end.
Lemma srv_move_server a s s' : srv_move a s = Some s' -> EventServer.server marshal s s'.
Proof.
  destruct a; try discriminate; cbn [srv_move].
  - destruct (EventServer.np s) as [| |d|l [|c todo]|] eqn:N; try discriminate.
    + intros [= <-]. destruct (EventServer.cancelled s) eqn:C; [by apply EventServer.n_end|by apply EventServer.n_continue].
    + destruct (EventServer.buf s) as [|e r] eqn:B; [discriminate|]. intros [= <-]. destruct (marshal e) eqn:M; [by eapply EventServer.n_event|by eapply EventServer.n_bad].
    + intros [= <-]. by apply EventServer.n_lock.
    + intros [= <-]. by eapply EventServer.n_unlock.
    + destruct (hung_up c (EventServer.log s)) eqn:H; [discriminate|]. intros [= <-].
      apply (EventServer.n_write marshal s l [] c todo); [exact N|by apply hung_up_false].
  - destruct (EventServer.sp s) as [| |c|] eqn:S; try discriminate.
    + intros [= <-]. destruct (EventServer.cancelled s) eqn:C; [by apply EventServer.s_end|by apply EventServer.s_continue].
    + intros H. assert (F : EventServer.mutex_free s) by (unfold EventServer.mutex_free; destruct (EventServer.np s); done).
      assert (E : s' = EventServer.add_log (EventServer.OAdd c) (EventServer.set_sp EventServer.STest (EventServer.set_clients ({[c]} ∪ EventServer.clients s) s)))
        by (destruct (EventServer.np s); congruence). rewrite E. by apply EventServer.s_add.
  - destruct (EventServer.cp s) eqn:C; try discriminate.
    + destruct (EventServer.cancelled s) eqn:Ca; [|discriminate]. intros [= <-]. by apply EventServer.c_wait.
    + intros [= <-]. by apply EventServer.c_listener.
    + intros [= <-]. by apply EventServer.c_chan.
Qed.

Definition runningb (g : prog) : bool :=
  match g_main g with MExit => false | _ => negb (EventServer.crashed (g_srv g)) && aliveb (g_sys g) end.
Lemma runningb_running g : runningb g = true -> running g.
Proof.
  unfold runningb. intros H. assert (H' : negb (EventServer.crashed (g_srv g)) && aliveb (g_sys g) = true) by (destruct (g_main g); [exact H..|discriminate H]).
  apply andb_prop in H' as [H1 H2]. split; [destruct (g_main g); discriminate|]. split; [by apply negb_true_iff|by apply aliveb_alive].
Qed.
Definition act (a : actor) (g : prog) : option prog :=
  if runningb g then
    match a with
    | Main => main_move g
    | Worker None => saver_main g
    | Worker (Some q) => sys_move (Some q) g
    | Cancel => Some (with_srv (EventServer.set_cancelled (g_srv g)) g)
    | Dial =>
        match EventServer.sp (g_srv g) with
        | EventServer.SAccept =>
            if EventServer.lclosed (g_srv g) then None
            else Some (with_srv (EventServer.set_next (S (EventServer.next (g_srv g))) (EventServer.set_sp (EventServer.SAdd (EventServer.next (g_srv g))) (g_srv g))) g)
        | _ => None
        end
    | _ => if on then match srv_move a (g_srv g) with Some s => Some (with_srv s g) | None => None end else None
    end
  else None.
Lemma act_moves a g g' : act a g = Some g' -> moves g g'.
Proof.
  unfold act. destruct (runningb g) eqn:R; [|discriminate]. pose proof (runningb_running g R) as Rg. pose proof Rg as (R1 & R2 & R3).
  assert (Sv : forall a, (if on then match srv_move a (g_srv g) with Some s => Some (with_srv s g) | None => None end else None) = Some g' -> moves g g').
  { intros a0 H. assert (D : on = true \/ on = false) by (destruct on; auto). destruct D as [D|D]; rewrite D in H; [|discriminate H].
    destruct (srv_move a0 (g_srv g)) as [s|] eqn:E; [|discriminate H]. injection H as <-. apply by_others; [exact Rg|].
    apply e_server; [exact D|by eapply srv_move_server]. }
  destruct a as [|[q|]| | | | |]; try (apply Sv).
  - intros H. apply by_work; [exact Rg|by apply main_move_work].
  - intros H. apply by_work; [exact Rg|by eapply sys_move_work].
  - intros H. apply by_work; [exact Rg|by apply saver_main_work].
  - destruct (EventServer.sp (g_srv g)) eqn:S; try discriminate. destruct (EventServer.lclosed (g_srv g)) eqn:L; [discriminate|]. intros [= <-].
    apply by_others; [exact Rg|]. apply e_outside; [by apply EventServer.o_accept|reflexivity|exact R2].
  - intros [= <-]. apply by_others; [exact Rg|]. apply e_outside; [apply EventServer.o_cancel|reflexivity|exact R2].
Qed.

(** n steps, each by the first in l who can move *)
Fixpoint first_act (l : list actor) (g : prog) : option prog :=
  match l with [] => None | a :: l' => match act a g with Some g' => Some g' | None => first_act l' g end end.
Fixpoint phase (l : list actor) (n : nat) (g : prog) : prog :=
  match n with O => g | S n' => match first_act l g with Some g' => phase l n' g' | None => g end end.
Definition play (ps : list (nat * list actor)) : prog := foldl (fun g p => phase p.2 p.1 g) (start cf) ps.
Lemma first_act_moves l g g' : first_act l g = Some g' -> moves g g'.
Proof.
  induction l as [|a l IH]; [discriminate|]. cbn. destruct (act a g) as [g1|] eqn:E; [|exact IH]. intros [= <-]. by eapply act_moves.
Qed.
Lemma phase_moves l n g : rtc moves g (phase l n g).
Proof.
  revert g. induction n as [|n IH]; intros g; [apply rtc_refl|]. cbn. destruct (first_act l g) as [g'|] eqn:E; [|apply rtc_refl].
  eapply rtc_l; [by eapply first_act_moves|apply IH].
Qed.
Lemma play_possible ps : possible (play ps).
Proof.
  unfold play, Program.possible. generalize (start cf). induction ps as [|p ps IH]; intros g; [apply rtc_refl|]. cbn.
  eapply rtc_transitive; [apply phase_moves|apply IH].
Qed.
End Runs.
