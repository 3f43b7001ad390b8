(* Property C80: progress of the update loop. *)
From Coq Require Import ZArith List Bool Lia String.
From Verif Require Import Py Num Utils Protocol Decoders Command CommandTable Commands World Elm Obd Async SpecElm SpecObd SpecAsync SpecLive
  AsyncFacts AsyncLive Properties_Elm Properties_Obd Properties_Async Async SpecAsync.
Import ListNotations.
Open Scope string_scope. Open Scope list_scope. Open Scope nat_scope.

(* ------------------------------------------------------------------ C80 *)
(* a loop that runs asks again and again: some number of steps of its thread is enough for one more query, however the steps of the
   other threads (the user's calls included) fall in between, until the thread has ended *)
Theorem C80_keeps_asking : forall s i, reachable s -> in_loop s i ->
  exists k, forall n sched, k * S n <= thread_steps i sched ->
    ended i (arun sched s) = true \/ exists new, a_events (arun sched s) = a_events s ++ new /\ S n <= count (asks i) new.
Proof. exact keeps_asking. Qed.
(* from start() on: every subscribed command is asked, and every callback of it called with an answer, any number of times *)
Theorem C80_every_command : forall s i rest, reachable s -> a_events (astep CMain s) = a_events s ++ AEv_start i :: rest ->
  exists k, forall n sched, k * S n <= thread_steps i sched ->
    ended i (arun (CMain :: sched) s) = true \/
    forall c fs, In (c, fs) (subscriptions s) ->
      n <= count (asks_for i c) (a_events (arun (CMain :: sched) s)) /\
      forall f, In f fs -> n <= count (hands i c f) (a_events (arun (CMain :: sched) s)).
Proof. exact every_command. Qed.
(* the loop ends only by a step of its own, and only because stop() is waiting for it, the connection is gone, a query raised or a
   callback raised *)
Theorem C80_ends_only : forall s ch i, reachable s -> in_loop s i -> ~ in_loop (astep ch s) i -> exists b, ch = CThread i b /\
  (inside_stop s \/ async_connected s = false \/ (exists c e, a_events (astep ch s) = a_events s ++ [AEv_query i c (Raise e)])
   \/ b = true /\ exists c f r, a_events (astep ch s) = a_events s ++ [AEv_fire i c f r]).
Proof. exact leaves_loop. Qed.
(* two commands, two callbacks: 45 steps of the loop, mixed with steps of the user's thread *)
Example C80_example : let s := arun (user 10) (begin [says_revs; says_speed; says_revs; says_speed; says_revs; says_speed] [AWatch revs (Some 1%Z) true; AWatch speed (Some 2%Z) true; AStart; AWatch speed None true]) in
  reachable s /\ a_events (astep CMain s) = a_events s ++ AEv_start 0 :: [AEv_return AStart ODone] /\ subscriptions s = [(revs, [1%Z]); (speed, [2%Z])] /\
  (let l := a_events (arun (CMain :: loop 0 15 ++ user 2 ++ loop 0 30) s) in count (asks_for 0 revs) l = 3 /\ count (hands 0 revs 1%Z) l = 2 /\ count (asks_for 0 speed) l = 2 /\ count (hands 0 speed 2%Z) l = 2).
Proof. cbv zeta. split; [ran|]. split; [vm_compute; reflexivity|]. split; [vm_compute; reflexivity|]. vm_compute. auto. Qed.
