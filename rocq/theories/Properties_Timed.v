(* Property C104: the pace of the update loop. *)
From Coq Require Import ZArith List Bool Lia String.
From Verif Require Import Py Num Utils Protocol Decoders Command CommandTable Commands World Elm Obd Async Timed SpecElm SpecObd SpecAsync SpecTimed PyFacts CommandThms ElmFacts ElmThms
  ObdFacts ObdThms ObdThms2 ObdThms3 ObdThms4 AsyncFacts AsyncThms AsyncThms2 AsyncThms3 AsyncThms4 AsyncHistory TimedThms
  Properties_Commands Properties_Protocol Properties_Decoders Properties_Elm Properties_Obd Properties_Async Async Timed SpecAsync SpecTimed.
Import ListNotations.
Open Scope list_scope. Open Scope Z_scope.

(* between two queries of the same command at least delay_cmds passes, whichever update threads make them, whatever is watched, stopped and
   started in between and however the threads are scheduled; unless an exception ended the thread that made the first (and the user started another) *)
Theorem C104_pace : forall d t a b x y i j c c', 0 <= d -> comes_to d t -> (a < b)%nat -> asked_at (tm_log t) a x i c -> asked_at (tm_log t) b y j c' -> same_cmd c c' ->
  x + d <= y \/ i <> j /\ ended_by_exception (tm_s t) i.
Proof. exact pace. Qed.
(* so a command that was asked n+1 times was asked over a time of at least n times delay_cmds *)
Theorem C104_how_often : forall d t c x ts, 0 <= d -> comes_to d t -> (forall i, ~ ended_by_exception (tm_s t) i) -> asked_times c (tm_log t) (x :: ts) ->
  Z.of_nat (List.length ts) * d <= last (x :: ts) x - x.
Proof.
  intros d t c x ts D C N H. apply (how_often d c (tm_log t) (x :: ts)) with (x := x) (ts' := ts); [|exact H|reflexivity|reflexivity].
  intros a b u v i j c1 c2 L A B S. destruct (pace d t a b u v i j c1 c2 D C L A B S) as [X|[_ X]]; [exact X|destruct (N _ X)].
Qed.
(* a thread sleeps only when it has asked each watched command as often as the others (it has finished a round, with all the callbacks called), and at most for delay_cmds *)
Theorem C104_between_rounds : forall d t dt sched i rest, 0 <= d -> comes_to d t -> a_events (astep CMain (tm_s t)) = a_events (tm_s t) ++ AEv_start i :: rest ->
  let t' := trun d ((dt, CMain) :: sched) t in sleeping t' i ->
  tm_wake t' i <= tm_now t' + d
  /\ exists answers q, turns i (subscriptions (tm_s t)) 0 answers (done_by i (a_events (tm_s t'))) /\ List.length answers = (q * List.length (subscriptions (tm_s t)))%nat.
Proof. exact sleeping_after_round. Qed.
(* with delay_cmds=0 no thread ever sleeps *)
Theorem C104_no_delay : forall t i, comes_to 0 t -> ~ sleeping t i.
Proof. intros t i C S. destruct (comes_inv _ _ (Z.le_refl 0) C) as (_ & W & _). unfold sleeping in S. destruct (W i) as [X|[_ X]]; lia. Qed.
(* the events are those of the object without its times, in the order of time: what the other properties say of reachable states and of the events holds of the timed
   object; and every schedule is possible in time *)
Theorem C104_untimed : forall d t, 0 <= d -> comes_to d t -> reachable (tm_s t) /\ map snd (tm_log t) = a_events (tm_s t)
  /\ (forall l1 x e l2, tm_log t = l1 ++ (x, e) :: l2 -> x <= tm_now t /\ forall y f, In (y, f) l2 -> x <= y).
Proof. intros d t D C. split; [exact (comes_reachable _ _ C)|]. split; [exact (same_events _ _ D C)|exact (in_order _ _ C)]. Qed.
Theorem C104_every_schedule : forall d s, 0 <= d -> reachable s -> exists t, comes_to d t /\ tm_s t = s.
Proof.
  intros d s D (prog & s0 & sched & C & ->). exists (trun d (map (fun ch => (d, ch)) sched) (new_timed s0 0)). split.
  - exists prog, s0, 0, (map (fun ch => (d, ch)) sched). auto.
  - apply timed_again; [exact D|]. apply (new_tinv d prog); assumption.
Qed.

(* ---- examples ---- *)
Definition every (dt : Z) (l : list choice) : list (Z * choice) := map (fun ch => (dt, ch)) l.
(* when what was asked *)
Fixpoint timetable (l : list (Z * aevent)) : list (Z * command) :=
  match l with [] => [] | (x, AEv_query _ c _) :: t => (x, c) :: timetable t | _ :: t => timetable t end.
(* two commands, delay_cmds left at its default, a step every millisecond: the rounds are a quarter of a second apart *)
Example C104_example : let t := trun default_delay (every 1000 (user 11 ++ loop 0 300)) (new_timed (begin [says_revs; says_speed; says_revs; says_speed] [AWatch revs None true; AWatch speed None true; AStart]) 0) in
  comes_to default_delay t /\ (forall i, ~ ended_by_exception (tm_s t) i) /\ timetable (tm_log t) = [(17000, revs); (23000, speed); (283000, revs); (289000, speed)] /\ sleeping t 0.
Proof.
  cbv zeta. split; [|split; [|split]].
  - exists [AWatch revs None true; AWatch speed None true; AStart], (begin [says_revs; says_speed; says_revs; says_speed] [AWatch revs None true; AWatch speed None true; AStart]), 0, (every 1000 (user 11 ++ loop 0 300)).
    split; [|reflexivity]. unfold begin. destruct (new_obd _ _ _ _) as [r [o w]] eqn:E. assert (R : r = Ok tt) by (change r with (fst (r, (o, w))); rewrite <- E; vm_compute; reflexivity). subst r.
    exists (setup true), (Some (str "p")), [], (fresh (up ++ [says_revs; says_speed; says_revs; says_speed])), o, w. auto.
  - intros [|i] [e H]; vm_compute in H; [discriminate H|destruct i; discriminate H].
  - vm_compute. reflexivity.
  - vm_compute. reflexivity.
Qed.
(* after an exception in a callback, a new thread asks at once *)
Example C104_after_exception : let t := trun default_delay (every 1000 (user 9 ++ loop 0 8 ++ [CThread 0 true] ++ user 20 ++ loop 1 6))
    (new_timed (begin [says_revs; says_revs] [AWatch revs (Some 1) true; AStart; AStop; AStart]) 0) in
  comes_to default_delay t /\ ended_by_exception (tm_s t) 0 /\ map fst (timetable (tm_log t)) = [15000; 44000].
Proof.
  cbv zeta. split; [|split].
  - exists [AWatch revs (Some 1) true; AStart; AStop; AStart], (begin [says_revs; says_revs] [AWatch revs (Some 1) true; AStart; AStop; AStart]), 0, (every 1000 (user 9 ++ loop 0 8 ++ [CThread 0 true] ++ user 20 ++ loop 1 6)).
    split; [|reflexivity]. unfold begin. destruct (new_obd _ _ _ _) as [r [o w]] eqn:E. assert (R : r = Ok tt) by (change r with (fst (r, (o, w))); rewrite <- E; vm_compute; reflexivity). subst r.
    exists (setup true), (Some (str "p")), [], (fresh (up ++ [says_revs; says_revs])), o, w. auto.
  - exists CustomError. vm_compute. reflexivity.
  - vm_compute. reflexivity.
Qed.
