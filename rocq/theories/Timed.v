(* Model of the time that passes while an Async object works: Async (the user's thread and the update threads as
   interleaved steps), with a clock. No proofs in this file.

   Times are whole microseconds. A scheduler's choice says how much time passes before the step (a step itself is at
   an instant: that of its end, so that the time a query or a callback takes is part of what passes before it). A thread that has called
   time.sleep(x) makes no step until x has passed; how much later it goes on is up to the scheduler. Simplification: delay_cmds
   is not negative (time.sleep raises ValueError otherwise). *)
From Coq Require Import ZArith List Bool.
From Verif Require Import Py Num Utils Protocol Decoders Command CommandTable Commands World Elm Obd Async.
Import ListNotations.
Open Scope Z_scope.

Record timed := mkT {
  tm_s : astate;                   (* the object *)
  tm_now : Z;                      (* the time *)
  tm_wake : nat -> Z;              (* until when the update threads sleep *)
  tm_log : list (Z * aevent) }.    (* the events, each with its time *)

(* asynchronous.py:48-50  delay_cmds=0.25 *)
Definition default_delay : Z := 250000.
(* asynchronous.py:223 time.sleep(self.__delay_cmds), 226 time.sleep(0.25): how long a thread that has come here sleeps. d = delay_cmds. *)
Definition sleeps (d : Z) (p : tpc) : Z :=
  match p with T_sleep => d | T_idle => 250000 | _ => 0 end.
Definition thread_sleeps (d : Z) (i : nat) (s : astate) : Z :=
  match nth_error (a_threads s) i with Some p => sleeps d p | None => 0 end.
(* the events of s' that s does not have, at the time now *)
Definition at_time (now : Z) (s s' : astate) : list (Z * aevent) :=
  map (fun e => (now, e)) (skipn (length (a_events s)) (a_events s')).
(* dt passes, then the one chosen makes a step *)
Definition tstep (d : Z) (m : Z * choice) (t : timed) : timed :=
  let now := tm_now t + Z.max 0 (fst m) in
  match snd m with
  | CMain =>
      let s' := astep CMain (tm_s t) in
      mkT s' now (tm_wake t) (tm_log t ++ at_time now (tm_s t) s')
  | CThread i b =>
      if now <? tm_wake t i then mkT (tm_s t) now (tm_wake t) (tm_log t)
      else
        let s' := astep (CThread i b) (tm_s t) in
        mkT s' now (fun j => if Nat.eqb j i then now + thread_sleeps d i s' else tm_wake t j) (tm_log t ++ at_time now (tm_s t) s')
  end.
Definition trun (d : Z) (sched : list (Z * choice)) (t : timed) : timed := fold_left (fun t m => tstep d m t) sched t.
(* a new object at the time t0 *)
Definition new_timed (s : astate) (t0 : Z) : timed := mkT s t0 (fun _ => t0) [].
