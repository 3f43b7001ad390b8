(* Specification vocabulary for the time of an Async object's doings. No proofs in this file. *)
From Coq Require Import ZArith List Bool.
From Verif Require Import Py Decoders Command World Elm Obd Async Timed SpecAsync.
Import ListNotations.
Open Scope Z_scope.

(* t is what an Async object with delay_cmds = d, made at some time, has come to *)
Definition comes_to (d : Z) (t : timed) : Prop := exists prog s0 t0 sched, created prog s0 /\ t = trun d sched (new_timed s0 t0).
(* the n-th of the events with their times is a query of c by thread i, at the time x *)
Definition asked_at (l : list (Z * aevent)) (n : nat) (x : Z) (i : nat) (c : command) : Prop := exists r, nth_error l n = Some (x, AEv_query i c r).
(* thread i was ended by an exception *)
Definition ended_by_exception (s : astate) (i : nat) : Prop := exists e, nth_error (a_threads s) i = Some (T_dead e).
(* thread i sleeps: it makes no step now *)
Definition sleeping (t : timed) (i : nat) : Prop := tm_now t < tm_wake t i.
(* two commands are the same: they have the same bytes and the same header *)
Definition same_cmd (c c' : command) : Prop := c_command c = c_command c' /\ c_header c = c_header c'.
(* the times at which c was asked, in order *)
Inductive asked_times (c : command) : list (Z * aevent) -> list Z -> Prop :=
| at_none : asked_times c [] []
| at_this x i c' r l ts : same_cmd c c' -> asked_times c l ts -> asked_times c ((x, AEv_query i c' r) :: l) (x :: ts)
| at_other x e l ts : (forall i c' r, e = AEv_query i c' r -> ~ same_cmd c c') -> asked_times c l ts -> asked_times c ((x, e) :: l) ts.
