(* Specification vocabulary for callbacks that use the API. No proofs in this file. *)
From Coq Require Import ZArith List Bool.
From Verif Require Import Py Num Utils Protocol Decoders Command CommandTable Commands World Elm Obd Async Async2 SpecAsync.
Import ListNotations.
Open Scope nat_scope.

(* a state of a program with an Async object whose callbacks do anything *)
Definition b_reachable (s : bstate) : Prop := exists prog s0 sched, created prog s0 /\ s = brun sched (new_b s0).
(* thread i is in a callback, which is between two calls (or has just been called) *)
Definition free (s : bstate) (i : nat) : Prop := exists o, b_in s i = Some (M_idle, o).
Definition no_callback (s : bstate) : Prop := forall i, b_in s i = None.
(* the callback running in thread i calls o now *)
Definition calls_now (ch : bchoice) (s : bstate) (i : nat) (o : aop) : Prop := ch = BDoes i (Calls o) /\ free s i.
(* calls that are safe in a callback: query(), start(), and, while running is true, changes of the subscriptions *)
Definition harmless (o : aop) (s : astate) : Prop :=
  match o with
  | AQuery _ | AStart => True
  | AWatch _ _ _ | AUnwatch _ _ | AUnwatchAll => a_running s = true
  | AStop | AEnter | AExit | AClose => False
  end.
(* in this run, callbacks make harmless calls only *)
Fixpoint polite (sched : list bchoice) (s : bstate) : Prop :=
  match sched with
  | [] => True
  | ch :: rest => (forall i o, calls_now ch s i o -> harmless o (b_a s)) /\ polite rest (bstep ch s)
  end.
(* the state b follows from a when callbacks take no time and make no calls *)
Definition follows (a b : astate) : Prop := exists sched, b = arun sched a.
(* the user's thread is inside stop(), which has set running to False *)
Definition being_stopped (s : astate) : Prop := match a_pc s with M_stop3 _ | M_stop4 _ _ | M_stop5 _ => True | _ => False end.
(* the callback that thread i called last *)
Definition last_fired (i : nat) (s : astate) (c : command) (f : callback) (r : response) : Prop :=
  exists l1 l2, a_events s = l1 ++ AEv_fire i c f r :: l2 /\ forall e, In e l2 -> by_thread i e = false.
(* calls that wait for the update thread *)
Definition waits (o : aop) : Prop := match o with AStop | AEnter | AClose => True | _ => False end.
(* a schedule gives thread i n steps *)
Definition b_steps (i : nat) (sched : list bchoice) : nat := length (filter (fun ch => match ch with BThread j => Nat.eqb i j | _ => false end) sched).
(* how often thread i has asked the car *)
Definition asked (i : nat) (l : list aevent) : nat := length (filter (fun e => match e with AEv_query j _ _ => Nat.eqb i j | _ => false end) l).
(* ---- who uses the connection ---- *)
Definition connection (s : bstate) : obd * world := (a_obd (b_a s), a_world (b_a s)).
(* update thread i is in query(), or about to enter it: its next action on the port is that of the query *)
Definition asking (s : bstate) (i : nat) : Prop := exists c it, nth_error (a_threads (b_a s)) i = Some (T_query c it).
(* the user's thread is in OBD.close(), or about to enter it *)
Definition user_closing (s : bstate) : Prop := a_pc (b_a s) = M_close2.
(* a callback running in thread i is in OBD.close(), or about to enter it *)
Definition callback_closing (s : bstate) (i : nat) : Prop := exists op, b_in s i = Some (M_close2, op).
