(* Properties C73-C75: callbacks that use the connection they are called by. *)
From Coq Require Import ZArith List Bool Lia String.
From Verif Require Import Py Num Utils Protocol Decoders Command CommandTable Commands World Elm Obd Async Async2 SpecElm SpecObd SpecAsync SpecAsync2 PyFacts CommandThms ElmFacts ElmThms
  ObdFacts ObdThms ObdThms2 ObdThms3 ObdThms4 AsyncFacts AsyncThms AsyncThms2 AsyncThms3 AsyncThms4 AsyncThms7 AsyncCb AsyncCb2 AsyncCb3 AsyncCb4
  Properties_Commands Properties_Protocol Properties_Decoders Properties_Elm Properties_Obd Properties_Async Async SpecAsync SpecAsync2.
Import ListNotations.
Open Scope string_scope. Open Scope list_scope. Open Scope nat_scope.

(* ---- concrete runs ---- *)
Lemma begin_b_reachable input prog sched s : fst (new_obd (setup true) (Some (str "p")) [] (fresh (up ++ input))) = Ok tt -> s = brun sched (new_b (begin input prog)) -> b_reachable s.
Proof.
  intros H ->. exists prog, (begin input prog), sched. split; [|reflexivity]. unfold begin. destruct (new_obd _ _ _ _) as [r [o w]] eqn:E. cbn [fst] in H. subst r.
  exists (setup true), (Some (str "p")), [], (fresh (up ++ input)), o, w. auto.
Qed.
Lemma begin_created input prog : fst (new_obd (setup true) (Some (str "p")) [] (fresh (up ++ input))) = Ok tt -> created prog (begin input prog).
Proof.
  intros H. unfold begin. destruct (new_obd _ _ _ _) as [r [o w]] eqn:E. cbn [fst] in H. subst r. exists (setup true), (Some (str "p")), [], (fresh (up ++ input)), o, w. auto.
Qed.
Definition b_user (n : nat) : list bchoice := repeat BMain n.
Definition b_loop (i n : nat) : list bchoice := repeat (BThread i) n.
Ltac b_ran := apply (begin_b_reachable _ _ _ _ ltac:(vm_compute; reflexivity) eq_refl).

(* ------------------------------------------------------------------ C73 *)
(* as long as callbacks call only query() and start(), and watch/unwatch/unwatch_all only while running is true, a program
   behaves as if they made no calls and took no time: it only reaches states that such a program reaches *)
Theorem C73_as_if_silent : forall prog s0 sched, created prog s0 -> polite sched (new_b s0) -> reachable (b_a (brun sched (new_b s0))).
Proof.
  intros prog s0 sched C P. assert (V : ainv s0) by (apply reachable_inv; exists prog, s0, []; auto).
  destruct (S_base _ _ (sim_run s0 sched (new_b s0) V (sim_start (new_b s0) (fun _ => eq_refl)) P)) as [sched' ->]. exists prog, s0, sched'. auto.
Qed.
(* ... and from a state in between, when no callback is running *)
Theorem C73_continues_as_if_silent : forall s sched, reachable (b_a s) -> no_callback s -> polite sched s -> follows (b_a s) (b_a (brun sched s)).
Proof. intros s sched Re N P. apply (S_base _ _ (sim_run (b_a s) sched s (proj1 (reachable_inv _ Re)) (sim_start s N) P)). Qed.
(* so, for example, the loop still goes round the subscriptions in order *)
Theorem C73_rounds : forall s i rest sched, reachable (b_a s) -> no_callback s -> a_events (b_a (bstep BMain s)) = a_events (b_a s) ++ AEv_start i :: rest -> polite sched (bstep BMain s) ->
  goes_round i (subscriptions (b_a s)) (done_by i (a_events (b_a (brun sched (bstep BMain s))))).
Proof.
  intros s i rest sched Re N E P.
  assert (Ea : b_a (bstep BMain s) = astep CMain (b_a s)) by (unfold bstep, astep; destruct (main_step (b_a s)); reflexivity).
  assert (En : no_callback (bstep BMain s)) by (intros j; unfold bstep; destruct (main_step (b_a s)); apply N).
  assert (Re' : reachable (b_a (bstep BMain s))).
  { rewrite Ea. destruct Re as (prog & s0 & sc & C & ->). exists prog, s0, (sc ++ [CMain]). split; [exact C|]. unfold arun. rewrite fold_left_app. reflexivity. }
  destruct (C73_continues_as_if_silent _ _ Re' En P) as [sc Es]. rewrite Es, Ea. apply (C55_rounds _ _ rest); [exact Re|rewrite <- Ea; exact E].
Qed.
(* query() in a callback returns the latest answer, at once and without any effect, whatever else callbacks do *)
Theorem C73_query : forall s i c, free s i -> let s' := bstep (BDoes i (Calls (AQuery c))) s in
  b_log s' = b_log s ++ [(i, AQuery c, OResponse (latest (b_a s) c))] /\ b_a s' = b_a s /\ free s' i.
Proof.
  intros s i c [x H]. unfold bstep, cb_does. rewrite H. unfold cb_step, main_step, lend. cbn [a_pc upd_pc upd_prog a_prog]. cbn [b_log b_a b_in]. split; [|split].
  - unfold came, latest. cbn. rewrite skipn_exact. reflexivity.
  - unfold finish, add_event. same_back.
  - exists (AQuery c). cbn [b_in]. rewrite put_same. reflexivity.
Qed.
(* every callback was called with a command and an answer to it ... *)
Theorem C73_called_with : forall s i, b_reachable s -> b_in s i <> None -> exists c f r, last_fired i (b_a s) c f r.
Proof. intros s i Re In. destruct (b_in s i) as [[pc op]|] eqn:E; [|congruence]. destruct (b_reachable_fired _ Re _ _ _ E) as (c & r & fs & it & f & _ & L). eauto. Qed.
(* ... and, as long as callbacks do harmless calls, query() of this command returns this very answer until the callback returns *)
Theorem C73_query_own : forall prog s0 sched i c f r c', created prog s0 -> polite sched (new_b s0) -> let s := brun sched (new_b s0) in
  b_in s i <> None -> last_fired i (b_a s) c f r -> same c c' = true -> latest (b_a s) c' = r.
Proof.
  intros prog s0 sched i c f r c' C P s In L Sm. assert (Rb : b_reachable s) by (exists prog, s0, sched; auto).
  destruct (b_in s i) as [[pc op]|] eqn:E; [|congruence]. destruct (b_reachable_fired _ Rb _ _ _ E) as (c1 & r1 & fs & it & f1 & Pc & L1). destruct (last_fired_unique _ _ _ _ _ _ _ _ L L1) as (-> & -> & ->).
  pose proof (C73_as_if_silent _ _ _ C P) as Re. apply reachable_inv in Re as [V _]. destruct (I_ok _ V _ _ Pc) as (_ & _ & D & _). unfold latest.
  change (dict_get cmd_eqb (a_cmds (b_a s)) c') with (dget (a_cmds (b_a s)) c'). rewrite <- (dget_congr _ c1 c') by exact Sm. fold s in D. rewrite D. reflexivity.
Qed.
(* harmless calls do not raise and have no effect *)
Theorem C73_no_exception : forall prog s0 sched i o e, created prog s0 -> polite sched (new_b s0) -> ~ In (i, o, ORaised e) (b_log (brun sched (new_b s0))).
Proof.
  intros prog s0 sched i o e C P. assert (V : ainv s0) by (apply reachable_inv; exists prog, s0, []; auto).
  apply (polite_log s0 sched (new_b s0) V (sim_start (new_b s0) (fun _ => eq_refl)) P). intros ? ? ? [].
Qed.
Theorem C73_no_effect : forall prog s0 sched ch i, created prog s0 -> polite (sched ++ [ch]) (new_b s0) -> let s := brun sched (new_b s0) in
  b_in s i <> None -> (ch = BThread i \/ exists o, ch = BDoes i (Calls o)) -> b_a (bstep ch s) = b_a s.
Proof.
  intros prog s0 sched ch i C P s In D. assert (V : ainv s0) by (apply reachable_inv; exists prog, s0, []; auto). apply polite_app in P as [P [P1 _]].
  exact (mild_no_effect s0 s ch i V (sim_run s0 sched (new_b s0) V (sim_start (new_b s0) (fun _ => eq_refl)) P) P1 In D).
Qed.
(* a callback of RPM queries RPM and SPEED, calls start() and subscribes to SPEED *)
Definition chatty := b_user 9 ++ b_loop 0 9 ++ [BDoes 0 (Calls (AQuery revs)); BDoes 0 (Calls (AQuery speed)); BDoes 0 (Calls AStart)] ++ b_loop 0 3 ++ [BDoes 0 (Calls (AWatch speed None true)); BDoes 0 Returns] ++ b_loop 0 5.
Lemma decide_polite : forall sched s, (fix go l s := match l with [] => true | ch :: l =>
  match ch with BDoes i (Calls o) => match b_in s i with Some (M_idle, _) => match o with AQuery _ | AStart => true | AWatch _ _ _ | AUnwatch _ _ | AUnwatchAll => a_running (b_a s) | _ => false end | _ => true end | _ => true end && go l (bstep ch s) end) sched s = true -> polite sched s.
Proof.
  induction sched as [|ch l IH]; intros s H; [exact Logic.I|]. apply andb_true_iff in H as [H1 H2]. split; [|exact (IH _ H2)]. intros i o [-> [x F]]. rewrite F in H1. destruct o; try exact Logic.I; try discriminate H1; exact H1.
Qed.
Example C73_example : let s0 := begin [says_revs; says_revs] [AWatch revs (Some 1%Z) true; AStart] in
  created [AWatch revs (Some 1%Z) true; AStart] s0 /\ polite chatty (new_b s0) /\
  (let s := brun (b_user 9 ++ b_loop 0 9) (new_b s0) in free s 0 /\ doings (a_events (b_a s)) = [inl revs; inr (revs, 1%Z)]) /\
  match b_log (brun chatty (new_b s0)) with (_, _, OResponse r) :: (_, _, OResponse r2) :: _ => r_messages r <> [] /\ r2 = empty_response | _ => False end /\
  map (fun x => snd (fst x)) (b_log (brun chatty (new_b s0))) = [AQuery revs; AQuery speed; AStart; AWatch speed None true] /\ a_running (b_a (brun chatty (new_b s0))) = true /\ in_loop (b_a (brun chatty (new_b s0))) 0.
Proof.
  split; [apply begin_created; vm_compute; reflexivity|]. split; [apply decide_polite; vm_compute; reflexivity|].
  split; [split; [exists AStop; vm_compute; reflexivity|vm_compute; reflexivity]|]. split; [vm_compute; split; [discriminate|reflexivity]|]. split; [vm_compute; reflexivity|]. split; [vm_compute; reflexivity|]. vm_compute. exact Logic.I.
Qed.

(* ------------------------------------------------------------------ C74 *)
(* while running is true, watch, unwatch and unwatch_all in a callback return at once and change nothing *)
Theorem C74_ignored : forall s i o, free s i -> a_running (b_a s) = true -> match o with AWatch _ _ _ | AUnwatch _ _ | AUnwatchAll => True | _ => False end ->
  let s' := bstep (BDoes i (Calls o)) s in b_log s' = b_log s ++ [(i, o, ODone)] /\ b_a s' = b_a s /\ free s' i.
Proof.
  intros s i o [x H] R W. unfold bstep, cb_does. rewrite H. unfold cb_step, main_step, lend. cbn [a_pc upd_pc upd_prog a_prog].
  destruct o; try contradiction W; cbn [a_running upd_prog upd_pc]; rewrite R; cbn [b_log b_a b_in]; (split; [unfold came; cbn; rewrite skipn_exact; reflexivity|]);
    (split; [unfold finish, add_event; same_back|]); eexists; cbn [b_in]; rewrite put_same; reflexivity.
Qed.
(* and running is true in every callback, except while another call is waiting in stop() *)
Theorem C74_running_in_callback : forall prog s0 sched i, created prog s0 -> polite sched (new_b s0) -> let s := brun sched (new_b s0) in
  b_in s i <> None -> a_running (b_a s) = true \/ being_stopped (b_a s).
Proof.
  intros prog s0 sched i C P s In. assert (Rb : b_reachable s) by (exists prog, s0, sched; auto). destruct (b_in s i) as [[pc op]|] eqn:E; [|congruence].
  destruct (b_reachable_fired _ Rb _ _ _ E) as (c & r & fs & it & f & Pc & _). pose proof (C73_as_if_silent _ _ _ C P) as Re. apply reachable_inv in Re as [V _].
  destruct (a_running (b_a s)) eqn:R; [left; reflexivity|right]. destruct (I_stopped _ V R _ _ Pc eq_refl) as [X|X]; [discriminate X|]. fold s in X. unfold being_stopped. destruct (a_pc (b_a s)); try discriminate X; exact Logic.I.
Qed.
(* an unwatch() in a callback while the user's stop() is waiting is not ignored: it kills the loop with RuntimeError (changed
   size during iteration) *)
Theorem C74_while_stopping_refuted : exists s, b_reachable s /\ b_log s = [(0, AUnwatch speed None, ODone)] /\ thread_died (b_a s) 0 RuntimeError.
Proof.
  exists (brun (b_user 11 ++ b_loop 0 9 ++ b_user 3 ++ [BDoes 0 (Calls (AUnwatch speed None))] ++ b_loop 0 1 ++ [BDoes 0 Returns] ++ b_loop 0 3)
    (new_b (begin [says_revs; says_speed] [AWatch revs (Some 1%Z) true; AWatch speed None true; AStart; AStop]))).
  split; [b_ran|]. split; vm_compute; reflexivity.
Qed.
Example C74_example : let s := brun (b_user 9 ++ b_loop 0 9) (new_b (begin [says_revs; says_revs] [AWatch revs (Some 1%Z) true; AStart])) in
  b_reachable s /\ free s 0 /\ a_running (b_a s) = true.
Proof. cbv zeta. split; [b_ran|]. split; [exists AStop; vm_compute; reflexivity|vm_compute; reflexivity]. Qed.

(* ------------------------------------------------------------------ C75 *)
(* whatever callbacks do: stop(), close() and paused() called in one never return, they raise RuntimeError *)
Theorem C75_raises : forall s i o out, b_reachable s -> In (i, o, out) (b_log s) -> waits o -> out = ORaised RuntimeError.
Proof. intros s i o out Re. apply (J_log _ (b_reachable_inv _ Re)). Qed.
(* ... within five further steps of the callback's thread, whatever the others do *)
Theorem C75_comes_back : forall s i o sched, b_reachable s -> free s i -> waits o -> 5 <= b_steps i sched ->
  exists new, b_log (brun (BDoes i (Calls o) :: sched) s) = b_log s ++ new /\ In (i, o, ORaised RuntimeError) new.
Proof. intros s i o sched Re F W N. apply wait_call; assumption. Qed.
(* when it raises, running is False; the connection, its port and what was written are as before *)
Theorem C75_after : forall s ch i o out, b_reachable s -> b_log (bstep ch s) = b_log s ++ [(i, o, out)] -> waits o ->
  a_running (b_a (bstep ch s)) = false /\ b_in (bstep ch s) i <> None /\ a_obd (b_a (bstep ch s)) = a_obd (b_a s) /\ a_world (b_a (bstep ch s)) = a_world (b_a s).
Proof. intros s ch i o out Re L W. exact (proj2 (stopped_by_it s ch i o out Re L W)). Qed.
(* from then on running stays False as long as this loop lasts, and the loop asks no more than a bounded number of commands *)
Theorem C75_stays_stopped : forall s i sched, b_reachable s -> b_in s i <> None -> a_running (b_a s) = false -> in_loop (b_a (brun sched s)) i -> a_running (b_a (brun sched s)) = false.
Proof. intros. eapply stays_stopped; eassumption. Qed.
Theorem C75_bounded : forall s i, b_reachable s -> b_in s i <> None -> a_running (b_a s) = false ->
  exists n, forall sched, asked i (a_events (b_a (brun sched s))) <= asked i (a_events (b_a s)) + n.
Proof. intros. apply ends_with_round; assumption. Qed.
(* the object is then stuck until the user's own stop(): start() does nothing *)
Theorem C75_no_restart_refuted : exists s, b_reachable s /\ b_log s = [(0, AStop, ORaised RuntimeError)] /\
  returns (a_events (b_a s)) = [(AWatch revs (Some 1%Z) true, ODone); (AStart, ODone); (AStart, ODone)] /\ a_pc (b_a s) = M_idle /\ async_connected (b_a s) = true /\ a_running (b_a s) = false /\ forall i, ~ is_alive (b_a s) i.
Proof.
  exists (brun (b_user 9 ++ b_loop 0 9 ++ [BDoes 0 (Calls AStop)] ++ b_loop 0 4 ++ [BDoes 0 Returns] ++ b_loop 0 5 ++ b_user 4)
    (new_b (begin [says_revs] [AWatch revs (Some 1%Z) true; AStart; AStart]))).
  split; [b_ran|]. split; [vm_compute; reflexivity|]. split; [vm_compute; reflexivity|]. split; [vm_compute; reflexivity|]. split; [vm_compute; reflexivity|]. split; [vm_compute; reflexivity|].
  intros i (p & P & A). vm_compute in P. destruct i as [|[|i]]; cbn in P; [|discriminate P..]. injection P as <-. discriminate A.
Qed.
Example C75_example : let s := brun (b_user 9 ++ b_loop 0 9) (new_b (begin [says_revs; says_revs] [AWatch revs (Some 1%Z) true; AStart])) in
  b_reachable s /\ free s 0 /\ b_log (brun (BDoes 0 (Calls AClose) :: b_loop 0 5) s) = [(0, AClose, ORaised RuntimeError)] /\ a_running (b_a (brun (BDoes 0 (Calls AClose) :: b_loop 0 5) s)) = false.
Proof. cbv zeta. split; [b_ran|]. split; [exists AStop; vm_compute; reflexivity|]. split; vm_compute; reflexivity. Qed.
