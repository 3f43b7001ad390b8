(* Specification vocabulary for the fine-grained model of Async connections. No proofs in this file. *)
From Coq Require Import List.
From Verif Require Import Py Command World Elm Obd Async SpecAsync Fine.
Import ListNotations.

(* no thread is in the middle of using the connection *)
Definition at_rest (f : fstate) : Prop := (forall i, f_asks f i = None) /\ f_closes f = None /\ f_power f = None.
(* who is: an update thread in a query, or the user's thread *)
Inductive user : Set := Loop (i : nat) | User.
Definition using_it (f : fstate) (u : user) : Prop :=
  match u with Loop i => f_asks f i <> None | User => f_closes f <> None \/ f_power f <> None end.
Definition of (ch : fchoice) : user := match ch with FThread i _ => Loop i | _ => User end.
(* the same in everything but the connection: subscriptions, stored answers, control variables, threads, calls, events *)
Definition same_apart_from_connection (a b : astate) : Prop :=
  a_cmds a = a_cmds b /\ a_cbs a = a_cbs b /\ a_gen a = a_gen b /\ a_running a = a_running b /\ a_was_running a = a_was_running b /\
  a_thread a = a_thread b /\ a_threads a = a_threads b /\ a_pc a = a_pc b /\ a_op a = a_op b /\ a_prog a = a_prog b /\ a_events a = a_events b.
(* the user makes no power calls *)
Definition no_power (sched : list fchoice) : Prop := forall low, ~ In (FPower low) sched.
(* the user makes power calls only while no update loop is running *)
Definition careful_step (ch : fchoice) (f : fstate) : Prop :=
  match ch with FPower _ => f_power f <> None \/ forall i, ~ in_loop (f_a f) i | _ => True end.
Fixpoint careful (sched : list fchoice) (f : fstate) : Prop :=
  match sched with [] => True | ch :: rest => careful_step ch f /\ careful rest (fstep ch f) end.
(* a state of a program that does so *)
Definition carefully_reached (f : fstate) : Prop := exists prog s0 sched, created prog s0 /\ careful sched (new_fine s0) /\ f = frun sched (new_fine s0).

(* runs in which using the connection is one step: those of Async.v, and power calls of the idle user. Second component: the power
   calls that have returned *)
Inductive whole : Set := Step (ch : choice) | Power (low : bool).
Definition power (low : bool) : MO unit := if low then obd_low_power else obd_normal_power.
Definition wstep (x : whole) (s : astate * list (bool * res unit)) : astate * list (bool * res unit) :=
  let '(a, l) := s in
  match x with
  | Step ch => (astep ch a, l)
  | Power low => match a_pc a with
                 | M_idle => let '(r, c) := power low (a_obd a, a_world a) in (upd_obd c a, l ++ [(low, r)])
                 | _ => s
                 end
  end.
Definition wrun (l : list whole) (s : astate * list (bool * res unit)) : astate * list (bool * res unit) := fold_left (fun s x => wstep x s) l s.

(* how many steps of the schedule are steps of an update thread, of the user's calls, of the user's power calls *)
Definition by_thread (i : nat) (ch : fchoice) : bool := match ch with FThread j _ => Nat.eqb i j | _ => false end.
Definition by_calls (ch : fchoice) : bool := match ch with FMain => true | _ => false end.
Definition by_powers (ch : fchoice) : bool := match ch with FPower _ => true | _ => false end.
Definition times (p : fchoice -> bool) (sched : list fchoice) : nat := length (filter p sched).
