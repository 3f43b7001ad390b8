(* Specification vocabulary for readers. No proofs in this file. *)
From Coq Require Import ZArith List Bool.
From Verif Require Import Py Command Obd Async SpecAsync Readers.
Import ListNotations.

(* what the calls of reader j came to, in order *)
Definition answers_of (j : nat) (l : list (nat * command * res response)) : list (command * res response) :=
  map (fun x => (snd (fst x), snd x)) (filter (fun x => Nat.eqb (fst (fst x)) j) l).
(* reader j is not in a call *)
Definition at_rest (j : nat) (r : rstate) : Prop := r_at r j = None.
(* the steps of the user's thread and the update threads in a schedule *)
Definition others (sched : list rchoice) : list choice := flat_map (fun ch => match ch with ROther c => [c] | RRead _ _ => [] end) sched.
(* how many steps reader j makes *)
Definition its_steps (j : nat) (sched : list rchoice) : nat := length (filter (fun ch => match ch with RRead k _ => Nat.eqb k j | ROther _ => false end) sched).
(* the calls that take commands out *)
Definition unwatches (o : aop) : bool := match o with AUnwatch _ _ | AUnwatchAll => true | _ => false end.
