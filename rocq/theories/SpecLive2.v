(* Specification vocabulary for C80 with callbacks that use the connection. No proofs in this file. *)
From Coq Require Import ZArith List Bool.
From Verif Require Import Py Num Utils Protocol Decoders Command CommandTable Commands World Elm Obd Async Async2 SpecObd SpecAsync SpecAsync2.
Import ListNotations.
Open Scope nat_scope.

(* steps of update thread i that are its own: it is scheduled, and not inside a callback. (A callback that never returns leaves it
   without further steps of its own.) *)
Definition own_step (i : nat) (ch : bchoice) (s : bstate) : nat :=
  match ch with
  | BThread j => if Nat.eqb i j then match b_in s i with None => 1 | Some _ => 0 end else 0
  | _ => 0
  end.
Fixpoint own_steps (i : nat) (sched : list bchoice) (s : bstate) : nat :=
  match sched with [] => 0 | ch :: t => own_step i ch s + own_steps i t (bstep ch s) end.
