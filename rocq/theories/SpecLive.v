(* Specification vocabulary for C80: progress of the update loop. No proofs in this file. *)
From Coq Require Import ZArith List Bool.
From Verif Require Import Py Num Utils Protocol Decoders Command CommandTable Commands World Elm Obd Async SpecObd SpecAsync.
Import ListNotations.
Open Scope nat_scope.

(* queries made by thread i; of the command c *)
Definition asks (i : nat) (e : aevent) : bool := match e with AEv_query j _ _ => Nat.eqb i j | _ => false end.
Definition asks_for (i : nat) (c : command) (e : aevent) : bool := match e with AEv_query j c' _ => Nat.eqb i j && same c' c | _ => false end.
Definition count (p : aevent -> bool) (l : list aevent) : nat := length (filter p l).
(* the user's thread is inside stop() (or inside a call that stops the loop first), and has told the loop to stop *)
Definition inside_stop (s : astate) : Prop := match a_pc s with M_stop3 _ | M_stop4 _ _ | M_stop5 _ => True | _ => False end.
(* calls of the callback f by thread i with an answer to c *)
Definition hands (i : nat) (c : command) (f : callback) (e : aevent) : bool := match e with AEv_fire j c' g _ => Nat.eqb i j && same c' c && Z.eqb g f | _ => false end.
