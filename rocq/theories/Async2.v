(* Model of obd/asynchronous.py, continued: callbacks that use the API of the connection they are called by.
   No proofs in this file.

   In Async.v a callback is one step. Here it takes time: once called (asynchronous.py:221-222) it runs in the update thread
   and, step by step, calls methods of the Async object, returns, or raises; which of these is left open (the scheduler
   decides), so every callback is covered, whatever it computes, remembers or catches. Its calls are those of Async.v,
   made of the same steps; they see the same attributes and interleave with the user's thread. The one difference: Thread.join()
   of the thread that executes it raises RuntimeError("cannot join current thread").
   Simplification: the list of callbacks of a command is walked as it was when the walk began (asynchronous.py:221); CPython would see
   changes made by a callback to this very list, which are possible only while a stop() is waiting. *)
From Coq Require Import ZArith List Bool.
From Verif Require Import Py Num Utils Protocol Decoders Command CommandTable Commands World Elm Obd Async.
Import ListNotations.
Open Scope nat_scope.

(* what a callback does next, when it is not in the middle of a call; asynchronous.py:222 *)
Inductive deed : Type := Calls (o : aop) | Returns | Raises.

(* asynchronous.py:41-49 (Async.v: astate) with the stack frames of callbacks added.
   b_in s i: update thread i is inside a callback, at this point of this API call (M_idle: between calls);
   b_log: the calls made by callbacks that have come back: thread, call, result *)
Record bstate := mkB { b_a : astate; b_in : nat -> option (mpc * aop); b_log : list (nat * aop * outcome) }.

(* helper: update of b_in *)
Definition put (i : nat) (x : option (mpc * aop)) (f : nat -> option (mpc * aop)) : nat -> option (mpc * aop) :=
  fun j => if Nat.eqb i j then x else f j.

(* the object as a call at pc in op (then prog) sees it: the methods of asynchronous.py:64-197 are those of Async.v: main_step *)
Definition lend (pc : mpc) (op : aop) (prog : list aop) (s : astate) : astate :=
  upd_pc pc (upd_prog op prog s).
(* ... and given back *)
Definition give_back (s s1 : astate) : astate :=
  mkA (a_cmds s1) (a_cbs s1) (a_gen s1) (a_running s1) (a_was_running s1) (a_thread s1) (a_threads s1) (a_obd s1) (a_world s1)
      (a_pc s) (a_op s) (a_prog s)
      (a_events s ++ filter (fun e => match e with AEv_return _ _ => false | _ => true end) (skipn (length (a_events s)) (a_events s1))).
(* helper: the results of calls that came back in this step *)
Definition came (i : nat) (s s1 : astate) : list (nat * aop * outcome) :=
  flat_map (fun e => match e with AEv_return o out => [(i, o, out)] | _ => [] end) (skipn (length (a_events s)) (a_events s1)).

(* one step of the API call that a callback of thread i is in, asynchronous.py:64-197; join() at 86 *)
Definition cb_step (i : nat) (pc : mpc) (op : aop) (prog : list aop) (s : bstate) : option bstate :=
  let join_self := match pc with M_stop4 j _ => Nat.eqb i j | _ => false end in
  if join_self then Some (mkB (b_a s) (put i (Some (M_idle, op)) (b_in s)) (b_log s ++ [(i, op, ORaised RuntimeError)]))
  else match main_step (lend pc op prog (b_a s)) with
       | None => None
       | Some s1 => Some (mkB (give_back (b_a s) s1) (put i (Some (a_pc s1, a_op s1)) (b_in s)) (b_log s ++ came i (b_a s) s1))
       end.

(* one step of update thread i, asynchronous.py:199-226; entering a callback at 222 *)
Definition loop_step (i : nat) (s : bstate) : option bstate :=
  match b_in s i with
  | Some (M_idle, _) => None                           (* the callback decides, see below *)
  | Some (pc, op) => cb_step i pc op [] s
  | None =>
      match thread_step i false (b_a s) with
      | None => None
      | Some s1 =>
          let entered := match nth_error (a_threads (b_a s)) i with Some (T_call _ _ (_ :: _) _) => true | _ => false end in
          Some (mkB s1 (if entered then put i (Some (M_idle, AStop)) (b_in s) else b_in s) (b_log s))
      end
  end.
(* the callback running in thread i does something *)
Definition cb_does (i : nat) (d : deed) (s : bstate) : option bstate :=
  match b_in s i with
  | Some (M_idle, _) =>
      match d with
      | Returns => Some (mkB (b_a s) (put i None (b_in s)) (b_log s))
      | Raises => Some (mkB (set_tpc i (T_dead CustomError) (b_a s)) (put i None (b_in s)) (b_log s))   (* nothing in run() catches it *)
      | Calls o => cb_step i M_idle AStop [o] s
      end
  | _ => None
  end.

(* the scheduler: the user's thread, an update thread, or a callback moves *)
Inductive bchoice : Type := BMain | BThread (i : nat) | BDoes (i : nat) (d : deed).
Definition bstep (ch : bchoice) (s : bstate) : bstate :=
  match (match ch with
         | BMain => option_map (fun s1 => mkB s1 (b_in s) (b_log s)) (main_step (b_a s))
         | BThread i => loop_step i s
         | BDoes i d => cb_does i d s
         end) with
  | Some s' => s'
  | None => s
  end.
Definition brun (sched : list bchoice) (s : bstate) : bstate := fold_left (fun s ch => bstep ch s) sched s.
Definition new_b (s : astate) : bstate := mkB s (fun _ => None) [].
