(* Specification vocabulary for open ports. No proofs in this file. *)
From Coq Require Import List.
From Verif Require Import Py World.
Import ListNotations.

(* how many serial ports are open after this activity, when n were open before; None if a port was used
   (written, read, configured or closed) while none was open *)
Fixpoint left_open (n : nat) (t : list event) : option nat :=
  match t with
  | [] => Some n
  | EvOpen _ true :: t => left_open (S n) t
  | EvOpen _ false :: t => left_open n t
  | EvClose :: t => match n with O => None | S k => left_open k t end
  | _ :: t => match n with O => None | S _ => left_open n t end
  end.
