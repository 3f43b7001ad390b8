(* Properties C83, C84: using the connection of an Async object takes time. *)
From Coq Require Import ZArith List Bool Lia String.
From Verif Require Import Py Num Utils Protocol Decoders Command CommandTable Commands World Elm Obd Async SpecElm SpecObd SpecAsync Fine SpecFine
  AsyncThms4 FineAsync2 FineAsync3 Properties_Elm Properties_Obd Properties_Async Async SpecAsync SpecFine.
Import ListNotations.
Open Scope string_scope. Open Scope list_scope. Open Scope nat_scope.

(* ---- concrete runs ---- *)
Definition users (n : nat) : list fchoice := repeat FMain n.
Definition loops (i n : nat) : list fchoice := repeat (FThread i false) n.
Definition powers (low : bool) (n : nat) : list fchoice := repeat (FPower low) n.
(* the adapter's answer to ATLP *)
Definition says_sleep := Some (str "OK" ++ [13%Z]).
Lemma begin_created input prog : fst (new_obd (setup true) (Some (str "p")) [] (fresh (up ++ input))) = Ok tt -> created prog (begin input prog).
Proof. intros H. unfold begin. destruct (new_obd _ _ _ _) as [r [o w]] eqn:E. cbn [fst] in H. subst r. exists (setup true), (Some (str "p")), [], (fresh (up ++ input)), o, w. auto. Qed.
Lemma no_power_careful sched : forall f, no_power sched -> careful sched f.
Proof.
  induction sched as [|ch sched IH]; intros f N; [exact Logic.I|]. split; [|apply IH; intros low I; exact (N low (or_intror I))]. destruct ch; try exact Logic.I. exfalso. exact (N low (or_introl eq_refl)).
Qed.
Definition quiet_of (ch : fchoice) : bool := match ch with FPower _ => false | _ => true end.
Lemma quiet_ok sched : forallb quiet_of sched = true -> no_power sched.
Proof. intros H low I. apply (proj1 (forallb_forall _ _) H) in I. discriminate I. Qed.
Ltac made := apply begin_created; vm_compute; reflexivity.
Ltac quietly := apply quiet_ok; vm_compute; reflexivity.
Lemma loop_using f i : (match f_asks f i with None => false | Some _ => true end) = true -> using_it f (Loop i).
Proof. cbn. destruct (f_asks f i); [discriminate|intros D; discriminate D]. Qed.
Definition is_none {A} (x : option A) : bool := match x with None => true | Some _ => false end.
Lemma none_is {A} (x : option A) : is_none x = true -> x = None. Proof. destruct x; [discriminate|reflexivity]. Qed.
Ltac nobody := apply none_is; vm_compute; reflexivity.
Ltac resting := split; [intros [|[|i]]; nobody|split; nobody].
(* the answers a loop got: of which thread, and whether null *)
Fixpoint answers (l : list aevent) : list (nat * bool) :=
  match l with [] => [] | AEv_query i _ (Ok r) :: t => (i, is_null r) :: answers t | _ :: t => answers t end.

(* ------------------------------------------------------------------ C83 *)
(* whatever the scheduler does between the single accesses to the port and to the connection's attributes: apart from the connection
   in the middle of a query or of close(), the program is where it would be if every query and every close() were one step *)
Theorem C83_as_one_step : forall prog s0 sched, created prog s0 -> no_power sched -> let f := frun sched (new_fine s0) in exists l,
  same_apart_from_connection (f_a f) (arun l s0) /\ (at_rest f -> f_a f = arun l s0).
Proof. exact as_steps. Qed.
(* and every such run is possible *)
Theorem C83_every_run : forall s0 l, exists sched, no_power sched /\ at_rest (frun sched (new_fine s0)) /\ f_a (frun sched (new_fine s0)) = arun l s0.
Proof. exact every_run. Qed.
(* never two users of the connection *)
Theorem C83_one_at_a_time : forall prog s0 sched u v, created prog s0 -> no_power sched -> let f := frun sched (new_fine s0) in using_it f u -> using_it f v -> u = v.
Proof. intros prog s0 sched u v C N f U W. apply (one_user f u v); [apply carefully_ok; exists prog, s0, sched; split; [exact C|split; [apply no_power_careful, N|reflexivity]]|exact U|exact W]. Qed.
(* a query of the loop, once about to be made: after finitely many steps of its thread, whatever other threads do meanwhile, it
   reports what the query alone would have, and leaves the connection as the query alone would have *)
Theorem C83_query : forall prog s0 before i c it, created prog s0 -> no_power before -> let f := frun before (new_fine s0) in
  nth_error (a_threads (f_a f)) i = Some (T_query c it) -> f_asks f i = None ->
  exists k, forall sched, no_power sched -> k <= times (by_thread i) sched -> exists s1 b s2, sched = s1 ++ FThread i b :: s2 /\
    let f1 := frun s1 f in let f2 := frun (s1 ++ [FThread i b]) f in
    nth_error (a_threads (f_a f1)) i = Some (T_query c it) /\
    a_events (f_a f2) = a_events (f_a f1) ++ [AEv_query i c (fst (query c true (f_conn f)))] /\ f_conn f2 = snd (query c true (f_conn f)).
Proof.
  intros prog s0 before i c it C N f P A. destruct (query_alone f i c it) as (k & K); [apply carefully_ok; exists prog, s0, before; split; [exact C|split; [apply no_power_careful, N|reflexivity]]|exact P|exact A|].
  exists k. intros sched Ns L. apply K; [apply no_power_careful, Ns|exact L].
Qed.
(* and so close() *)
Theorem C83_close : forall prog s0 before, created prog s0 -> no_power before -> let f := frun before (new_fine s0) in
  a_pc (f_a f) = M_close2 -> f_closes f = None ->
  exists k, forall sched, no_power sched -> k <= times by_calls sched -> exists s1 s2, sched = s1 ++ FMain :: s2 /\
    let f1 := frun s1 f in let f2 := frun (s1 ++ [FMain]) f in
    a_events (f_a f2) = a_events (f_a f1) ++ [AEv_return (a_op (f_a f)) (match fst (obd_close (f_conn f)) with Ok _ => ODone | Raise e => ORaised e end)] /\
    f_conn f2 = snd (obd_close (f_conn f)).
Proof.
  intros prog s0 before C N f P A. destruct (close_alone f) as (k & K); [apply carefully_ok; exists prog, s0, before; split; [exact C|split; [apply no_power_careful, N|reflexivity]]|exact P|exact A|].
  exists k. intros sched Ns L. apply K; [apply no_power_careful, Ns|exact L].
Qed.
(* stop() called between the accesses of a query: the query is the one it would have been *)
Example C83_example : let s0 := begin [says_revs] [AWatch revs (Some 1%Z) true; AStart; AStop; AClose] in created [AWatch revs (Some 1%Z) true; AStart; AStop; AClose] s0 /\
  (let f := frun (users 9 ++ loops 0 5) (new_fine s0) in (exists it, nth_error (a_threads (f_a f)) 0 = Some (T_query revs it)) /\ f_asks f 0 = None /\ at_rest f) /\
  (let f := frun (users 9 ++ loops 0 13 ++ users 3) (new_fine s0) in using_it f (Loop 0) /\ a_pc (f_a f) = M_stop3 K_stop) /\
  (let f := frun (users 9 ++ loops 0 13 ++ users 3 ++ loops 0 30 ++ users 5) (new_fine s0) in a_pc (f_a f) = M_close2 /\ f_closes f = None /\ answers (a_events (f_a f)) = [(0, false)]) /\
  no_power (users 9 ++ loops 0 13 ++ users 3 ++ loops 0 30 ++ users 5).
Proof.
  cbv zeta. split; [made|]. split; [split; [eexists; vm_compute; reflexivity|split; [nobody|resting]]|].
  split; [split; [apply loop_using; vm_compute; reflexivity|vm_compute; reflexivity]|]. split; [split; [vm_compute; reflexivity|split; [nobody|vm_compute; reflexivity]]|quietly].
Qed.

(* ------------------------------------------------------------------ C84 *)
(* low_power() and normal_power() as on a connection without threads: the call returns what it would, leaves the connection as it
   would, and no query is disturbed. This holds if the calls are made only while no update loop is running. *)
Theorem C84_power_partial : forall f low, carefully_reached f -> a_pc (f_a f) = M_idle -> f_power f = None -> (forall i, ~ in_loop (f_a f) i) ->
  exists k, forall sched, careful sched (fstep (FPower low) f) -> k <= times by_powers sched -> exists s1 lw s2, sched = s1 ++ FPower lw :: s2 /\
    let f2 := frun (FPower low :: s1 ++ [FPower lw]) f in
    f_powers f2 = f_powers f ++ [(low, fst (power low (f_conn f)))] /\ f_conn f2 = snd (power low (f_conn f)).
Proof. intros f low R. apply power_alone, carefully_ok, R. Qed.
Theorem C84_query_partial : forall f i c it, carefully_reached f -> nth_error (a_threads (f_a f)) i = Some (T_query c it) -> f_asks f i = None ->
  exists k, forall sched, careful sched f -> k <= times (by_thread i) sched -> exists s1 b s2, sched = s1 ++ FThread i b :: s2 /\
    let f1 := frun s1 f in let f2 := frun (s1 ++ [FThread i b]) f in
    nth_error (a_threads (f_a f1)) i = Some (T_query c it) /\
    a_events (f_a f2) = a_events (f_a f1) ++ [AEv_query i c (fst (query c true (f_conn f)))] /\ f_conn f2 = snd (query c true (f_conn f)).
Proof. intros f i c it R. apply query_alone, carefully_ok, R. Qed.
(* whole runs *)
Theorem C84_as_one_step_partial : forall prog s0 sched, created prog s0 -> careful sched (new_fine s0) -> let f := frun sched (new_fine s0) in exists l, let w := wrun l (s0, []) in
  same_apart_from_connection (f_a f) (fst w) /\ f_powers f = snd w /\ (at_rest f -> f_a f = fst w).
Proof. exact as_whole. Qed.
Theorem C84_one_at_a_time_partial : forall f u v, carefully_reached f -> using_it f u -> using_it f v -> u = v.
Proof. intros f u v R. apply one_user, carefully_ok, R. Qed.
(* a power call made while the loop is running: the loop has sent its request, the call reads the car's answer (and does not
   recognise the adapter's OK behind it): the query, which alone would have had its value, comes back empty, and the connection does
   not know that the adapter has gone to sleep, though the adapter said so *)
Theorem C84_running_refuted : exists prog s0 before sched, created prog s0 /\ no_power before /\
  let f := frun before (new_fine s0) in let f' := frun sched f in
  at_rest f /\ at_rest f' /\ answers (a_events (f_a f)) = [] /\
  (match fst (query revs true (f_conn f)) with Ok r => is_null r = false | Raise _ => False end) /\ answers (a_events (f_a f')) = [(0, true)] /\
  f_powers f' = [(true, Ok tt)] /\ In (EvRead says_sleep) (w_trace (a_world (f_a f'))) /\ asleep (a_obd (f_a f')) = false.
Proof.
  exists [AWatch revs (Some 1%Z) true; AStart], (begin [says_revs; says_sleep] [AWatch revs (Some 1%Z) true; AStart]), (users 9 ++ loops 0 5), (loops 0 8 ++ powers true 10 ++ loops 0 41).
  split; [made|]. split; [quietly|]. cbv zeta. split; [resting|]. split; [resting|].
  split; [vm_compute; reflexivity|]. split; [vm_compute; reflexivity|]. split; [vm_compute; reflexivity|]. split; [vm_compute; reflexivity|]. split; [vm_compute; tauto|vm_compute; reflexivity].
Qed.
(* or the loop's query takes the OK: a call that would have put the connection to sleep leaves it awake *)
Theorem C84_taken_refuted : exists prog s0 before sched, created prog s0 /\ no_power before /\
  let f := frun before (new_fine s0) in let f' := frun sched f in
  at_rest f /\ at_rest f' /\ a_pc (f_a f) = M_idle /\ asleep (fst (snd (power true (f_conn f)))) = true /\
  f_powers f' = [(true, Ok tt)] /\ In (EvRead says_sleep) (w_trace (a_world (f_a f'))) /\ asleep (a_obd (f_a f')) = false.
Proof.
  exists [AWatch revs (Some 1%Z) true; AStart], (begin [says_sleep; says_revs] [AWatch revs (Some 1%Z) true; AStart]), (users 9 ++ loops 0 5), (powers true 5 ++ loops 0 17 ++ powers true 4).
  split; [made|]. split; [quietly|]. cbv zeta. split; [resting|]. split; [resting|].
  split; [vm_compute; reflexivity|]. split; [vm_compute; reflexivity|]. split; [vm_compute; reflexivity|]. split; [vm_compute; tauto|vm_compute; reflexivity].
Qed.
(* a call made while the loop is stopped: then the loop again *)
Example C84_example : let prog := [AWatch revs (Some 1%Z) true; AStart; AStop; AStart] in let s0 := begin [says_revs; says_sleep; says (str "OK"); says_revs] prog in
  let before := users 9 ++ loops 0 24 ++ users 3 ++ loops 0 10 ++ users 3 in
  let f := frun before (new_fine s0) in created prog s0 /\ no_power before /\ a_pc (f_a f) = M_idle /\ f_power f = None /\ (forall i, ~ in_loop (f_a f) i) /\
  asleep (fst (f_conn f)) = false /\ asleep (fst (snd (power true (f_conn f)))) = true /\
  (let f' := frun (powers true 10 ++ users 7 ++ loops 1 60) f in f_powers f' = [(true, Ok tt)] /\ answers (a_events (f_a f')) = [(0, false); (1, false)]).
Proof.
  cbv zeta. split; [made|]. split; [quietly|]. split; [vm_compute; reflexivity|]. split; [nobody|]. split; [intros [|[|i]]; vm_compute; auto|]. split; [vm_compute; reflexivity|]. split; [vm_compute; reflexivity|]. split; vm_compute; reflexivity.
Qed.
