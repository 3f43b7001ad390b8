(* Model of Async.query(), asynchronous.py:188-197, called by any number of further threads of the program while the user's thread
   and the update threads go on. No proofs in this file.

   On top of Async.v. The two accesses to __commands are two steps. watch(), unwatch() and unwatch_all() change __commands
   in one place each (142; 171 or 175; 185), so that their being one step in Async.v makes no difference to a reader. *)
From Coq Require Import ZArith List Bool.
From Verif Require Import Py Num Utils Protocol Decoders Command CommandTable Commands World Elm Obd Async.
Import ListNotations.
Open Scope Z_scope.

(* the object; for each reader the command it is going to fetch (195), if it is in a call; what the calls of the readers came to *)
Record rstate := mkR { r_a : astate; r_at : nat -> option command; r_got : list (nat * command * res response) }.
Definition put_at (f : nat -> option command) (j : nat) (x : option command) : nat -> option command :=
  fun k => if Nat.eqb k j then x else f k.
Inductive rchoice : Type := ROther (ch : choice) | RRead (j : nat) (c : command).
(* reader j calls query(c), if it is not in a call; else it goes on with its call *)
Definition rstep (ch : rchoice) (r : rstate) : rstate :=
  match ch with
  | ROther ch => mkR (astep ch (r_a r)) (r_at r) (r_got r)
  | RRead j c =>
      match r_at r j with
      | None =>
          if dict_mem cmd_eqb (a_cmds (r_a r)) c                                          (* 194 *)
          then mkR (r_a r) (put_at (r_at r) j (Some c)) (r_got r)
          else mkR (r_a r) (r_at r) (r_got r ++ [(j, c, Ok empty_response)])              (* 197 *)
      | Some c =>
          mkR (r_a r) (put_at (r_at r) j None)
              (r_got r ++ [(j, c, match dict_get cmd_eqb (a_cmds (r_a r)) c with Some x => Ok x | None => Raise KeyError end)])   (* 195 *)
      end
  end.
Definition rrun (sched : list rchoice) (r : rstate) : rstate := fold_left (fun r ch => rstep ch r) sched r.
Definition new_readers (s : astate) : rstate := mkR s (fun _ => None) [].
