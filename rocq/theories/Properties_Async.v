(* Properties C53-C62: Async connections. *)
From Coq Require Import ZArith List Bool Lia String.
From Verif Require Import Py Num Utils Protocol Decoders Command CommandTable Commands World Elm Obd Async SpecElm SpecObd SpecAsync PyFacts CommandThms ElmFacts ElmThms
  ObdFacts ObdThms ObdThms2 ObdThms3 ObdThms4 AsyncFacts AsyncThms AsyncThms2 AsyncThms3 AsyncThms4 AsyncThms5 AsyncThms6 AsyncThms7 AsyncThms8 AsyncThms9 AsyncThms10
  Properties_Commands Properties_Protocol Properties_Decoders Properties_Elm Properties_Obd Async SpecAsync.
Import ListNotations.
Open Scope string_scope. Open Scope list_scope. Open Scope nat_scope.

(* ---- concrete runs, for examples and refutations ---- *)
Definition begin (input : list (option bytes)) (prog : list aop) : astate :=
  let '(_, (o, w)) := new_obd (setup true) (Some (str "p")) [] (fresh (up ++ input)) in new_async o w prog.
Lemma begin_reachable input prog sched s : fst (new_obd (setup true) (Some (str "p")) [] (fresh (up ++ input))) = Ok tt -> s = arun sched (begin input prog) -> reachable s.
Proof.
  intros H ->. exists prog, (begin input prog), sched. split; [|reflexivity]. unfold begin. destruct (new_obd _ _ _ _) as [r [o w]] eqn:E. cbn [fst] in H. subst r.
  exists (setup true), (Some (str "p")), [], (fresh (up ++ input)), o, w. auto.
Qed.
Definition user (n : nat) : list choice := repeat CMain n.
Definition loop (i n : nat) : list choice := repeat (CThread i false) n.
Definition revs := cmd "RPM".
Definition speed := cmd "SPEED".
Definition says_revs := says (str "7E8 04 41 0C 1A F8").
Definition says_speed := says (str "7E8 03 41 0D 20").
(* what the calls returned *)
Fixpoint returns (l : list aevent) : list (aop * outcome) :=
  match l with [] => [] | AEv_return o out :: t => (o, out) :: returns t | _ :: t => returns t end.
(* which commands were asked and which callbacks called *)
Fixpoint doings (l : list aevent) : list (command + command * callback) :=
  match l with
  | [] => []
  | AEv_query _ c _ :: t => inl c :: doings t
  | AEv_fire _ c f _ :: t => inr (c, f) :: doings t
  | _ :: t => doings t
  end.
Ltac ran := apply (begin_reachable _ _ _ _ ltac:(vm_compute; reflexivity) eq_refl).

(* ------------------------------------------------------------------ C53 *)
(* any sequence of watch, unwatch and unwatch_all calls, made while the loop is stopped (each takes the user's thread two
   steps; the update threads may move in between): the table changes as the map does, provided each unwatch(c, f) has f
   among the callbacks of c (or c not watched) *)
Theorem C53_table_partial : forall ops s sched, reachable s -> about_to_call ops s -> a_running s = false ->
  user_steps sched = 2 * List.length ops -> tidy (a_obd s) ops (subscriptions s) ->
  sub_calls (a_obd s) ops (subscriptions s) (subscriptions (arun sched s)).
Proof. intros ops s sched Re A R U T. destruct (reachable_inv _ Re) as [V B]. apply table_calls; assumption. Qed.
(* unwatch(c, f) for a callback f that was never subscribed drops the command and all its callbacks *)
Theorem C53_stranger_refuted : exists s sched, reachable s /\ about_to_call [AUnwatch revs (Some 2%Z)] s /\ a_running s = false /\ user_steps sched = 2 /\
  subscriptions s = [(revs, [1%Z])] /\ subscriptions (arun sched s) = [].
Proof.
  exists (arun (user 2) (begin [] [AWatch revs (Some 1%Z) true; AUnwatch revs (Some 2%Z)])), (user 2). split; [ran|].
  split; [split; [vm_compute; reflexivity|exists []; vm_compute; reflexivity]|]. vm_compute. auto.
Qed.
Example C53_example : exists s sched, reachable s /\ about_to_call [AWatch revs (Some 1%Z) true; AWatch speed None true; AWatch revs (Some 2%Z) true; AUnwatch revs (Some 1%Z)] s /\ a_running s = false /\ user_steps sched = 8
  /\ tidy (a_obd s) [AWatch revs (Some 1%Z) true; AWatch speed None true; AWatch revs (Some 2%Z) true; AUnwatch revs (Some 1%Z)] (subscriptions s)
  /\ subscriptions (arun sched s) = [(revs, [2%Z]); (speed, [])].
Proof.
  set (ops := [AWatch revs (Some 1%Z) true; AWatch speed None true; AWatch revs (Some 2%Z) true; AUnwatch revs (Some 1%Z)]). exists (begin [] ops), (user 8). split; [apply begin_reachable with (input := []) (prog := ops) (sched := []); [vm_compute; reflexivity|unfold arun, fold_left; reflexivity]|].
  split; [split; [vm_compute; reflexivity|exists []; vm_compute; reflexivity]|]. split; [vm_compute; reflexivity|]. split; [reflexivity|]. split; [|vm_compute; reflexivity].
  assert (E : subscriptions (begin [] ops) = []) by (vm_compute; reflexivity). rewrite E.
  assert (K : forall o c cb t t1, sub_call o (AWatch c cb true) t t1 -> t1 = sub_watch c cb t).
  { intros o c cb t t1 H. inversion H; subst; [reflexivity|]. match goal with X : ~ may_send _ _ _ |- _ => elim X; left; reflexivity end. }
  cbn [ops tidy]. split; [exact Logic.I|]. intros t1 ->%K. split; [exact Logic.I|]. intros t2 ->%K. split; [exact Logic.I|]. intros t3 ->%K. split; [|intros; exact Logic.I].
  assert (X : sub_watch revs (Some 2%Z) (sub_watch speed None (sub_watch revs (Some 1%Z) [])) = [(revs, [1%Z; 2%Z]); (speed, [])]) by (vm_compute; reflexivity).
  rewrite X. intros c' l [Y|[Y|[]]] S; apply pair_equal_spec in Y as [<- <-]; [left; reflexivity|]. vm_compute in S. discriminate S.
Qed.

(* ------------------------------------------------------------------ C54 *)
Theorem C54_no_change_while_running : forall s ch, reachable s -> a_running s = true -> subscriptions (astep ch s) = subscriptions s.
Proof. intros s ch Re R. destruct (reachable_inv _ Re) as [V _]. apply subs_running; assumption. Qed.
(* the calls themselves return at once *)
Theorem C54_calls_return : forall s o, about_to_call [o] s -> a_running s = true ->
  match o with AWatch _ _ _ | AUnwatch _ _ | AUnwatchAll => True | _ => False end ->
  a_events (astep CMain s) = a_events s ++ [AEv_return o ODone] /\ a_pc (astep CMain s) = M_idle /\ a_cmds (astep CMain s) = a_cmds s /\ a_cbs (astep CMain s) = a_cbs s.
Proof.
  intros s o (P & rest & Pr) R K. unfold astep, main_step. rewrite P, Pr. destruct o; try contradiction; cbn [app a_running upd_prog]; rewrite R; cbn; auto.
Qed.
Example C54_example : exists s, reachable s /\ about_to_call [AWatch speed (Some 7%Z) true] s /\ a_running s = true /\ subscriptions s = [(revs, [])] /\ subscriptions (arun (user 2) s) = [(revs, [])].
Proof.
  exists (arun (user 9) (begin [] [AWatch revs None true; AStart; AWatch speed (Some 7%Z) true])). split; [ran|]. split; [split; [vm_compute; reflexivity|exists []; vm_compute; reflexivity]|]. vm_compute. auto.
Qed.

(* ------------------------------------------------------------------ C55 *)
(* when start() (or leaving a paused block) starts thread i, everything this thread ever asks and calls goes round the table
   as it was then: command by command, each asked once and then its callbacks called in order with the answer *)
Theorem C55_rounds : forall s i rest sched, reachable s -> a_events (astep CMain s) = a_events s ++ AEv_start i :: rest ->
  goes_round i (subscriptions s) (done_by i (a_events (arun (CMain :: sched) s))).
Proof. exact goes_round_always. Qed.
(* the answer is stored before a callback gets it *)
Theorem C55_stored_first : forall s j b i c f r, reachable s -> a_events (astep (CThread j b) s) = a_events s ++ [AEv_fire i c f r] -> latest s c = r.
Proof.
  intros s j b i c f r Re E. destruct (reachable_inv _ Re) as [V _]. unfold astep in E. destruct (thread_step j b s) as [s'|] eqn:H.
  2:{ rewrite <- (app_nil_r (a_events s)) in E at 1. apply app_inv_head in E. discriminate E. }
  destruct (thread_step_spec _ _ _ _ V H) as (p & P & U). pose proof (I_ok _ V _ _ P) as Tk.
  assert (D : a_events s' <> a_events s) by (intros X; rewrite X in E; rewrite <- (app_nil_r (a_events s)) in E at 1; apply app_inv_head in E; discriminate E).
  destruct p; cbn [undisturbed_step] in U; try contradiction; try (elim D; subst s'; reflexivity).
  - destruct U as (q & ow & _ & ->). cbn in E. apply app_inv_head in E. discriminate E.
  - destruct U as (l & _ & ->). elim D. reflexivity.
  - destruct cbs as [|g fs]; [elim D; subst s'; reflexivity|]. subst s'. cbn in E. apply app_inv_head in E. injection E as -> -> -> ->. destruct Tk as (_ & _ & G & _). unfold latest. rewrite G. reflexivity.
Qed.
Example C55_example : let s := arun (user 12) (begin [says_revs; says_speed; says_revs] [AWatch revs (Some 1%Z) true; AWatch revs (Some 2%Z) true; AWatch speed None true; AStart]) in
  reachable s /\ (exists rest, a_events (astep CMain s) = a_events s ++ AEv_start 0 :: rest) /\ subscriptions s = [(revs, [1%Z; 2%Z]); (speed, [])]
  /\ doings (a_events (arun (CMain :: loop 0 30) s)) = [inl revs; inr (revs, 1%Z); inr (revs, 2%Z); inl speed; inl revs; inr (revs, 1%Z); inr (revs, 2%Z)].
Proof.
  cbv zeta. split; [ran|]. split; [exists [AEv_return AStart ODone]; vm_compute; reflexivity|]. split; vm_compute; reflexivity.
Qed.

(* ------------------------------------------------------------------ C56 *)
Theorem C56_one_thread : forall s i j, reachable s -> in_loop s i -> in_loop s j -> i = j.
Proof. exact one_loop. Qed.
(* once stop(), entering a paused block or close() has returned: no thread is in its loop, and until a start nothing is asked
   and no callback called *)
Theorem C56_after_stop_partial : forall s o out sched, reachable s -> a_events (astep CMain s) = a_events s ++ [AEv_return o out] -> stops o out ->
  (forall i, ~ in_loop (astep CMain s) i) /\
  forall new, a_events (arun (CMain :: sched) s) = a_events (astep CMain s) ++ new -> (forall i, ~ In (AEv_start i) new) ->
    (forall e, In e new -> activity e = false) /\ forall i, ~ in_loop (arun (CMain :: sched) s) i.
Proof. exact after_stop_quiet. Qed.
(* a thread can still be alive then: only one that has seen the disconnection and executes its return statement next *)
Theorem C56_leftover_partial : forall s i, reachable s -> is_alive s i -> in_loop s i \/
  async_connected s = false /\ forall b, nth_error (a_threads (astep (CThread i b) s)) i = Some T_done.
Proof. exact alive_in_loop. Qed.
Theorem C56_alive_refuted : exists s, reachable s /\ returns (a_events s) = [(AWatch revs None true, ODone); (AStart, ODone); (AStop, ODone)] /\ a_pc s = M_idle /\ is_alive s 0.
Proof.
  exists (arun (user 9 ++ loop 0 18 ++ user 2) (begin [None] [AWatch revs None true; AStart; AStop])). split; [ran|].
  split; [vm_compute; reflexivity|]. split; [vm_compute; reflexivity|]. exists T_return. split; vm_compute; reflexivity.
Qed.
Example C56_example : let s := arun (user 9 ++ loop 0 6 ++ user 4 ++ loop 0 20 ++ user 1) (begin [says_revs; says_revs] [AWatch revs None true; AStart; AStop]) in
  reachable s /\ a_events (astep CMain s) = a_events s ++ [AEv_return AStop ODone] /\ doings (a_events s) = [inl revs].
Proof. cbv zeta. split; [ran|]. split; vm_compute; reflexivity. Qed.

(* ------------------------------------------------------------------ C57 *)
(* an update thread dies by an exception of a query (decoder, connection) or of a callback, by nothing else: in particular
   not by a missing callback list or a table changed during iteration *)
Theorem C57_dies_only_by : forall s ch i e, reachable s -> thread_died (astep ch s) i e -> ~ thread_died s i e ->
  exists b, ch = CThread i b /\
    ((exists c, a_events (astep ch s) = a_events s ++ [AEv_query i c (Raise e)]) \/
     (b = true /\ e = CustomError /\ exists c f r, a_events (astep ch s) = a_events s ++ [AEv_fire i c f r])).
Proof. exact dies_only_by. Qed.
(* while a thread is in its loop on a connected object, the table stands still *)
Theorem C57_table_still : forall s ch i, reachable s -> in_loop s i -> async_connected s = true -> subscriptions (astep ch s) = subscriptions s.
Proof.
  intros s ch i Re L C. destruct (reachable_inv _ Re) as [V _]. apply (subs_looping s ch i V L). intros P. pose proof (I_ok _ V _ _ P) as [X _]. congruence.
Qed.
(* stop, change, start in any interleaving: the old thread never sees the new table *)
Example C57_example : let s := arun (user 9 ++ loop 0 8 ++ user 3 ++ loop 0 5 ++ user 14 ++ loop 1 12)
    (begin [says_revs; says_speed; says_speed] [AWatch revs (Some 1%Z) true; AStart; AStop; AUnwatchAll; AWatch speed None true; AStart]) in
  reachable s /\ doings (a_events s) = [inl revs; inr (revs, 1%Z); inl speed] /\ in_loop s 1 /\ ~ in_loop s 0.
Proof. cbv zeta. split; [ran|]. split; [vm_compute; reflexivity|]. split; [vm_compute; exact Logic.I|vm_compute; auto]. Qed.

(* ------------------------------------------------------------------ C58 *)
(* leaving the block entered last, with the loop not running: if it was running on entry, connected and something is watched, it
   is started again (after eight steps of the user's thread the ninth starts it), ... *)
Theorem C58_restarts_partial : forall s sched, reachable s -> about_to_call [AExit] s -> a_running s = false -> last_entered (a_events s) None = Some true ->
  async_connected s = true -> subscriptions s <> [] -> user_steps sched = 8 ->
  exists i, a_events (astep CMain (arun sched s)) = a_events s ++ [AEv_start i; AEv_return AExit (OBool false)] /\ in_loop (astep CMain (arun sched s)) i /\ a_running (astep CMain (arun sched s)) = true.
Proof.
  intros s sched Re A R L C N U. apply leave_restarts; auto. intros E. apply N. unfold subscriptions. rewrite E. reflexivity.
Qed.
(* ... and if it was not, it stays stopped *)
Theorem C58_stays_partial : forall s sched, reachable s -> about_to_call [AExit] s -> a_running s = false -> last_entered (a_events s) None = Some false -> user_steps sched = 3 ->
  a_events (arun sched s) = a_events s ++ [AEv_return AExit (OBool false)] /\ a_running (arun sched s) = false.
Proof. exact leave_stays_stopped. Qed.
(* the inner of two nested blocks overwrites the note made by the outer one: the loop stays stopped *)
Theorem C58_nested_refuted : exists s, reachable s /\
  returns (a_events s) = [(AWatch revs None true, ODone); (AStart, ODone); (AEnter, OBool true); (AEnter, OBool false); (AExit, OBool false); (AExit, OBool false)]
  /\ async_connected s = true /\ subscriptions s = [(revs, [])] /\ a_running s = false /\ forall i, ~ in_loop s i.
Proof.
  exists (arun (user 9 ++ loop 0 6 ++ user 5 ++ loop 0 20 ++ user 15) (begin [says_revs] [AWatch revs None true; AStart; AEnter; AEnter; AExit; AExit])). split; [ran|].
  split; [vm_compute; reflexivity|]. split; [vm_compute; reflexivity|]. split; [vm_compute; reflexivity|]. split; [vm_compute; reflexivity|].
  intros i. destruct i as [|[|i]]; vm_compute; auto.
Qed.
Example C58_example : let s := arun (user 9 ++ loop 0 6 ++ user 5 ++ loop 0 20 ++ user 2) (begin [says_revs] [AWatch revs None true; AStart; AEnter; AExit]) in
  reachable s /\ about_to_call [AExit] s /\ a_running s = false /\ last_entered (a_events s) None = Some true /\ async_connected s = true /\ subscriptions s <> [].
Proof. cbv zeta. split; [ran|]. split; [split; [vm_compute; reflexivity|exists []; vm_compute; reflexivity]|]. repeat (split; [vm_compute; reflexivity|]). vm_compute. discriminate. Qed.
Example C58_example_off : let s := arun (user 3) (begin [says_revs] [AEnter; AExit]) in
  reachable s /\ about_to_call [AExit] s /\ a_running s = false /\ last_entered (a_events s) None = Some false.
Proof. cbv zeta. split; [ran|]. split; [split; [vm_compute; reflexivity|exists []; vm_compute; reflexivity]|]. split; vm_compute; reflexivity. Qed.

(* ------------------------------------------------------------------ C59 *)
(* Async.query is one step without port activity, and returns this: *)
Theorem C59_query : forall s c, about_to_call [AQuery c] s ->
  let s' := astep CMain s in a_events s' = a_events s ++ [AEv_return (AQuery c) (OResponse (latest s c))] /\ a_obd s' = a_obd s /\ a_world s' = a_world s.
Proof. exact query_latest. Qed.
Theorem C59_unwatched : forall s c, ~ is_watched s c -> latest s c = empty_response.
Proof. exact latest_unwatched. Qed.
Theorem C59_fresh : forall c cb force s sched, reachable s -> about_to_call [AWatch c cb force] s -> a_running s = false -> user_steps sched = 2 ->
  may_send (a_obd s) c force -> ~ is_watched s c -> is_watched (arun sched s) c /\ latest (arun sched s) c = empty_response.
Proof. intros c cb force s sched Re A R U M W. destruct (reachable_inv _ Re) as [V B]. exact (watch_empty c cb force s sched V B A R U M W). Qed.
(* as long as the command stays watched: the last answer, or the one before while the last is being stored *)
Theorem C59_latest : forall c sched s, reachable s -> stays_watched c sched s -> (forall r, ~ storing s c r) ->
  exists new, a_events (arun sched s) = a_events s ++ new /\
    let answers := answers_to c new in
    latest (arun sched s) c = last answers (latest s c) \/
    exists before r, answers = before ++ [r] /\ storing (arun sched s) c r /\ latest (arun sched s) c = last before (latest s c).
Proof.
  intros c sched s Re W N. destruct (reachable_inv _ Re) as [V _]. destruct (latest_answer c sched s V W (latest s c) []) as (new & E & K); [left; split; [exact N|reflexivity]|].
  exists new. split; [exact E|]. cbv zeta. cbn [app] in K. destruct K as [[_ K]|K]; [left; exact K|right; exact K].
Qed.
Lemma loop_watched i n c : forall s, reachable s -> is_watched s c -> stays_watched c (loop i n) s.
Proof.
  induction n as [|n IH]; intros s Re W; (split; [exact W|]); [exact Logic.I|]. apply IH; [apply reachable_step, Re|]. destruct (reachable_inv _ Re) as [V _].
  unfold astep. destruct (thread_step i false s) as [s'|] eqn:H; [|exact W]. destruct (thread_frame _ _ _ _ V H) as (_ & _ & _ & _ & _ & _ & F & _). unfold is_watched. rewrite F. exact W.
Qed.
Fixpoint rpms (l : list aevent) : list value := match l with [] => [] | AEv_query _ _ (Ok r) :: t => r_value r :: rpms t | _ :: t => rpms t end.
Example C59_example : let s := arun (user 9) (begin [says_revs; says (str "7E8 04 41 0C 00 04")] [AWatch revs None true; AStart; AQuery revs]) in
  reachable s /\ about_to_call [AQuery revs] s /\ stays_watched revs (loop 0 20) s /\ (forall r, ~ storing s revs r) /\ latest s revs = empty_response
  /\ let s' := arun (loop 0 20) s in List.length (rpms (a_events s')) = 2 /\ r_value (latest s' revs) = last (rpms (a_events s')) VNone.
Proof.
  cbv zeta. split; [ran|]. split; [split; [vm_compute; reflexivity|exists []; vm_compute; reflexivity]|].
  split; [|split; [|split; [vm_compute; reflexivity|split; vm_compute; reflexivity]]].
  - apply loop_watched; [ran|]. exists revs. split; [vm_compute; left; reflexivity|vm_compute; reflexivity].
  - intros r (i & c' & it & P & _). destruct i as [|[|i]]; vm_compute in P; discriminate P.
Qed.

(* ------------------------------------------------------------------ C60 *)
(* nothing but AttributeError, and this only after a disconnection *)
Theorem C60_raises_only_partial : forall s o e, reachable s -> a_events (astep CMain s) = a_events s ++ [AEv_return o (ORaised e)] -> o = AStop \/ o = AEnter ->
  e = AttributeError /\ async_connected s = false.
Proof. exact stop_raises. Qed.
(* stop() comes back: after four steps of the user's thread and enough steps of one update thread (callbacks may raise or not),
   two more steps are enough *)
Theorem C60_comes_back_partial : forall s a, reachable s -> about_to_call [AStop] s -> user_steps a = 4 ->
  exists i n, forall b c, n <= thread_steps i b -> 2 <= user_steps c -> came_back (a_events s) (arun (a ++ b ++ c) s).
Proof. exact stop_returns. Qed.
(* the update thread forgets itself (210-211) between stop()'s test and its join: None.join() *)
Theorem C60_race_refuted : exists s, reachable s /\
  returns (a_events s) = [(AWatch revs None true, ODone); (AStart, ODone); (AStop, ORaised AttributeError)].
Proof.
  exists (arun (user 9 ++ loop 0 16 ++ user 2 ++ loop 0 2 ++ user 2) (begin [None] [AWatch revs None true; AStart; AStop])). split; [ran|]. vm_compute. reflexivity.
Qed.
Example C60_example : let s := arun (user 9 ++ loop 0 6) (begin [says_revs] [AWatch revs None true; AStart; AStop]) in
  reachable s /\ about_to_call [AStop] s /\ returns (a_events (arun (user 4 ++ loop 0 20 ++ user 2) s)) = [(AWatch revs None true, ODone); (AStart, ODone); (AStop, ODone)].
Proof. cbv zeta. split; [ran|]. split; [split; [vm_compute; reflexivity|exists []; vm_compute; reflexivity]|]. vm_compute. reflexivity. Qed.

(* ------------------------------------------------------------------ C61 *)
(* a disconnected object stays disconnected, and nothing is asked any more *)
Theorem C61_no_more_queries : forall s sched, reachable s -> async_connected s = false -> async_connected (arun sched s) = false /\
  exists new, a_events (arun sched s) = a_events s ++ new /\ forall i c r, ~ In (AEv_query i c r) new.
Proof. intros s sched Re C. destruct (reachable_inv _ Re) as [V _]. apply disconnected_run; assumption. Qed.
(* its update thread ends, whatever the others do *)
Theorem C61_thread_ends : forall s i, reachable s -> async_connected s = false -> in_loop s i -> exists n, forall sched, n <= thread_steps i sched -> ended i (arun sched s) = true.
Proof. exact disconnected_ends. Qed.
(* if no callback raises, it returns normally and running is false then (unless the user is in the middle of a start()) *)
Theorem C61_running_false : forall s i, reachable s -> async_connected s = false -> starting (a_pc s) = false -> in_loop s i ->
  exists n, forall sched, callbacks_fine sched -> n <= thread_steps i sched -> nth_error (a_threads (arun sched s)) i = Some T_done /\ a_running (arun sched s) = false.
Proof. exact disconnected_stops. Qed.
Example C61_example : let s := arun (user 9 ++ loop 0 6) (begin [None] [AWatch revs None true; AStart]) in
  reachable s /\ async_connected s = false /\ starting (a_pc s) = false /\ in_loop s 0 /\ a_running s = true.
Proof. cbv zeta. split; [ran|]. split; [vm_compute; reflexivity|]. split; [vm_compute; reflexivity|]. split; [vm_compute; exact Logic.I|vm_compute; reflexivity]. Qed.

(* ------------------------------------------------------------------ C62 *)
(* between API calls: running means that a thread is in its loop, unless one was ended by an exception *)
Theorem C62_running_partial : forall s, reachable s -> a_running s = true -> a_pc s = M_idle -> (exists i, in_loop s i) \/ exists i e, thread_died s i e.
Proof. intros s Re R P. destruct (running_means s Re R) as [H|[H|H]]; [left; exact H|contradiction|right; exact H]. Qed.
(* so it tells the truth if neither a callback nor a query has raised *)
Theorem C62_without_exceptions_partial : forall prog s0 sched, created prog s0 -> callbacks_fine sched -> (forall i c e, ~ In (AEv_query i c (Raise e)) (a_events (arun sched s0))) ->
  a_running (arun sched s0) = true -> a_pc (arun sched s0) = M_idle -> exists i, in_loop (arun sched s0) i.
Proof.
  intros prog s0 sched Cr F N R P. assert (Re : reachable (arun sched s0)) by (exists prog, s0, sched; auto).
  destruct (C62_running_partial _ Re R P) as [H|(i & e & H)]; [exact H|]. elim (no_thread_dies prog s0 sched Cr F N i e H).
Qed.
Theorem C62_exception_refuted : exists s, reachable s /\ a_pc s = M_idle /\ a_running s = true /\ forall i, ~ is_alive s i.
Proof.
  exists (arun (user 9 ++ loop 0 8 ++ [CThread 0 true]) (begin [says_revs] [AWatch revs (Some 1%Z) true; AStart])). split; [ran|].
  split; [vm_compute; reflexivity|]. split; [vm_compute; reflexivity|]. intros i (p & P & A). destruct i as [|[|i]]; vm_compute in P; [injection P as <-; discriminate A|discriminate P|discriminate P].
Qed.
(* ... and the loop cannot be started again before stop() *)
Theorem C62_no_restart_refuted : exists s, reachable s /\ returns (a_events s) = [(AWatch revs (Some 1%Z) true, ODone); (AStart, ODone); (AStart, ODone)] /\ async_connected s = true /\ forall i, ~ is_alive s i.
Proof.
  exists (arun (user 9 ++ loop 0 8 ++ [CThread 0 true] ++ user 4) (begin [says_revs] [AWatch revs (Some 1%Z) true; AStart; AStart])). split; [ran|].
  split; [vm_compute; reflexivity|]. split; [vm_compute; reflexivity|]. intros i (p & P & A). destruct i as [|[|i]]; vm_compute in P; [injection P as <-; discriminate A|discriminate P|discriminate P].
Qed.
Example C62_example : let s := arun (user 9) (begin [says_revs] [AWatch revs (Some 1%Z) true; AStart]) in reachable s /\ a_running s = true /\ a_pc s = M_idle.
Proof. cbv zeta. split; [ran|]. split; vm_compute; reflexivity. Qed.
