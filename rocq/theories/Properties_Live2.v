(* Property C80 with callbacks that use the connection they are called by. *)
From Coq Require Import ZArith List Bool Lia String.
From Verif Require Import Py Num Utils Protocol Decoders Command CommandTable Commands World Elm Obd Async Async2 SpecElm SpecObd SpecAsync SpecAsync2
  AsyncFacts AsyncThms AsyncThms2 AsyncThms3 AsyncThms4 AsyncThms7 AsyncCb AsyncLive AsyncCb5 Properties_Elm Properties_Obd Properties_Async Properties_Callbacks Properties_Live Async SpecAsync SpecAsync2 SpecLive SpecLive2.
Import ListNotations.
Open Scope string_scope. Open Scope list_scope. Open Scope nat_scope.

(* ------------------------------------------------------------------ C80 *)
(* callbacks that call query() and start() (and watch/unwatch/unwatch_all while running is true) do not keep the loop from asking: some
   number of steps of the loop's own is enough for one more query, whatever the callbacks do in between and however long they take *)
Theorem C80_with_callbacks : forall s i, reachable (b_a s) -> no_callback s -> in_loop (b_a s) i ->
  exists k, forall n sched, polite sched s -> k * S n <= own_steps i sched s ->
    ended i (b_a (brun sched s)) = true \/ exists new, a_events (b_a (brun sched s)) = a_events (b_a s) ++ new /\ S n <= count (asks i) new.
Proof.
  intros s i Re N L. destruct (keeps_asking _ _ Re L) as [k K]. exists k. intros n sched P O.
  destruct (polite_schedule i s sched (proj1 (reachable_inv _ Re)) N P) as (sched' & E & T). rewrite E. apply K. lia.
Qed.
(* from start() on: every subscribed command is asked, and every callback of it called with an answer, any number of times *)
Theorem C80_callbacks_every_command : forall s i rest, reachable (b_a s) -> no_callback s -> a_events (b_a (bstep BMain s)) = a_events (b_a s) ++ AEv_start i :: rest ->
  exists k, forall n sched, polite sched (bstep BMain s) -> k * S n <= own_steps i sched (bstep BMain s) ->
    ended i (b_a (brun (BMain :: sched) s)) = true \/
    forall c fs, In (c, fs) (subscriptions (b_a s)) ->
      n <= count (asks_for i c) (a_events (b_a (brun (BMain :: sched) s))) /\
      forall f, In f fs -> n <= count (hands i c f) (a_events (b_a (brun (BMain :: sched) s))).
Proof.
  intros s i rest Re N H. assert (Ea : b_a (bstep BMain s) = astep CMain (b_a s)) by (unfold bstep, astep; destruct (main_step (b_a s)); reflexivity).
  assert (En : no_callback (bstep BMain s)) by (intros j; unfold bstep; destruct (main_step (b_a s)); apply N).
  rewrite Ea in H. destruct (every_command _ _ _ Re H) as [k K]. exists k. intros n sched P O.
  assert (Re' : reachable (b_a (bstep BMain s))).
  { rewrite Ea. destruct Re as (prog & s0 & sc & C & ->). exists prog, s0, (sc ++ [CMain]). split; [exact C|]. unfold arun. rewrite fold_left_app. reflexivity. }
  destruct (polite_schedule i (bstep BMain s) sched (proj1 (reachable_inv _ Re')) En P) as (sched' & E & T).
  change (brun (BMain :: sched) s) with (brun sched (bstep BMain s)). rewrite E, Ea. apply (K n sched'). lia.
Qed.
(* a callback of RPM that queries RPM and SPEED and calls start(), every time it is called: the loop asks RPM three times *)
Example C80_callbacks_example : let s := brun (b_user 8) (new_b (begin [says_revs; says_revs; says_revs] [AWatch revs (Some 1%Z) true; AStart])) in
  let busy := [BDoes 0 (Calls (AQuery revs)); BDoes 0 (Calls (AQuery speed)); BDoes 0 (Calls AStart)] ++ b_loop 0 3 ++ [BDoes 0 Returns] in
  let sched := b_loop 0 9 ++ busy ++ b_loop 0 12 ++ busy ++ b_loop 0 12 ++ busy in
  reachable (b_a s) /\ no_callback s /\ a_events (b_a (bstep BMain s)) = a_events (b_a s) ++ AEv_start 0 :: [AEv_return AStart ODone] /\ polite sched (bstep BMain s) /\
  subscriptions (b_a s) = [(revs, [1%Z])] /\ own_steps 0 sched (bstep BMain s) = 33 /\
  count (asks_for 0 revs) (a_events (b_a (brun (BMain :: sched) s))) = 3 /\ count (hands 0 revs 1%Z) (a_events (b_a (brun (BMain :: sched) s))) = 3.
Proof.
  cbv zeta. split; [exists [AWatch revs (Some 1%Z) true; AStart], (begin [says_revs; says_revs; says_revs] [AWatch revs (Some 1%Z) true; AStart]), (user 8); split; [apply begin_created; vm_compute; reflexivity|vm_compute; reflexivity]|].
  split; [intros j; vm_compute; reflexivity|]. split; [vm_compute; reflexivity|]. split; [apply decide_polite; vm_compute; reflexivity|].
  split; [vm_compute; reflexivity|]. split; [vm_compute; reflexivity|]. vm_compute. auto.
Qed.
