(* Specification vocabulary for Async connections. No proofs in this file. *)
From Coq Require Import ZArith List Bool.
From Verif Require Import Py Num Utils Protocol Decoders Command CommandTable Commands World Elm Obd Async SpecObd.
Import ListNotations.
Open Scope nat_scope.

(* a state of a program that made an Async object and makes the API calls prog: some scheduler ran the user's thread and
   the update threads so far *)
Definition created (prog : list aop) (s0 : astate) : Prop :=
  exists cf port scan w o w1, new_obd cf port scan w = (Ok tt, (o, w1)) /\ s0 = new_async o w1 prog.
Definition reachable (s : astate) : Prop := exists prog s0 sched, created prog s0 /\ s = arun sched s0.

(* the user's thread is about to call o, and then the others *)
Definition about_to_call (o : list aop) (s : astate) : Prop := a_pc s = M_idle /\ exists rest, a_prog s = o ++ rest.
(* a schedule gives the user's thread n steps *)
Definition is_main (ch : choice) : bool := match ch with CMain => true | _ => false end.
Definition is_thread (i : nat) (ch : choice) : bool := match ch with CThread j _ => Nat.eqb i j | _ => false end.
Definition user_steps (sched : list choice) : nat := length (filter is_main sched).
Definition thread_steps (i : nat) (sched : list choice) : nat := length (filter (is_thread i) sched).
(* no callback raises an exception *)
Definition callbacks_fine (sched : list choice) : Prop := forall i, ~ In (CThread i true) sched.

(* the update thread i is in its loop: it has been started and has not come to a return or an exception. *)
Definition in_loop (s : astate) (i : nat) : Prop :=
  match nth_error (a_threads s) i with
  | None | Some T_new | Some T_return | Some T_done | Some (T_dead _) => False
  | Some _ => True
  end.
Definition is_alive (s : astate) (i : nat) : Prop := exists p, nth_error (a_threads s) i = Some p /\ alive p = true.
Definition thread_died (s : astate) (i : nat) (e : exn) : Prop := nth_error (a_threads s) i = Some (T_dead e).

(* ---- subscriptions ---- *)
(* a subscription table: the watched commands in order of subscription, each with its callbacks *)
Definition subs : Type := list (command * list callback).
Definition subscriptions (s : astate) : subs :=
  map (fun c => (c, match dict_get cmd_eqb (a_cbs s) c with Some l => l | None => [] end)) (map fst (a_cmds s)).
(* (commands are the same if request and header are) *)
Definition same (a b : command) : bool := text_eqb (c_command a) (c_command b) && text_eqb (c_header a) (c_header b).
Fixpoint sub_watch (c : command) (cb : option callback) (t : subs) : subs :=
  match t with
  | [] => [(c, match cb with Some f => [f] | None => [] end)]
  | (c', l) :: t =>
      if same c' c then (c', match cb with Some f => if in_dec Z.eq_dec f l then l else l ++ [f] | None => l end) :: t
      else (c', l) :: sub_watch c cb t
  end.
(* the callbacks without f (which is there at most once) *)
Definition without (f : callback) (l : list callback) : list callback := filter (fun g => negb (Z.eqb g f)) l.
(* dropping one callback drops the command if no callback is left *)
Fixpoint sub_unwatch (c : command) (cb : option callback) (t : subs) : subs :=
  match t with
  | [] => []
  | (c', l) :: t =>
      if same c' c then
        match cb with
        | None => t
        | Some f => match without f l with
                    | [] => t
                    | l' => (c', l') :: t
                    end
        end
      else (c', l) :: sub_unwatch c cb t
  end.
(* the callback is subscribed to this command, or the command is not watched at all *)
Definition unwatchable (c : command) (cb : option callback) (t : subs) : Prop :=
  match cb with
  | None => True
  | Some f => forall c' l, In (c', l) t -> same c' c = true -> In f l
  end.
(* what a call does to the table *)
Inductive sub_call (o : obd) : aop -> subs -> subs -> Prop :=
| sc_watch c cb force t : may_send o c force -> sub_call o (AWatch c cb force) t (sub_watch c cb t)
| sc_refused c cb force t : ~ may_send o c force -> sub_call o (AWatch c cb force) t t
| sc_unwatch c cb t : unwatchable c cb t -> sub_call o (AUnwatch c cb) t (sub_unwatch c cb t)
| sc_unwatch_all t : sub_call o AUnwatchAll t [].
Inductive sub_calls (o : obd) : list aop -> subs -> subs -> Prop :=
| scs_nil t : sub_calls o [] t t
| scs_cons p ps t t1 t2 : sub_call o p t t1 -> sub_calls o ps t1 t2 -> sub_calls o (p :: ps) t t2.
(* every unwatch of a callback among the calls is one of a subscribed callback *)
Fixpoint tidy (o : obd) (ps : list aop) (t : subs) : Prop :=
  match ps with
  | [] => True
  | p :: ps =>
      match p with
      | AWatch _ _ _ | AUnwatchAll => True
      | AUnwatch c cb => unwatchable c cb t
      | _ => False
      end /\ forall t1, sub_call o p t t1 -> tidy o ps t1
  end.

(* ---- the update loop ---- *)
(* queries made and callbacks called by thread i *)
Definition by_thread (i : nat) (e : aevent) : bool :=
  match e with AEv_query j _ _ => Nat.eqb i j | AEv_fire j _ _ _ => Nat.eqb i j | _ => false end.
Definition done_by (i : nat) (l : list aevent) : list aevent := filter (by_thread i) l.
Definition activity (e : aevent) : bool := match e with AEv_query _ _ _ | AEv_fire _ _ _ _ => true | _ => false end.
Definition fires (i : nat) (c : command) (r : response) (fs : list callback) : list aevent := map (fun f => AEv_fire i c f r) fs.
(* one command's turn: one query, then its callbacks in order with the answer *)
Definition turn (i : nat) (e : command * list callback) (r : response) : list aevent :=
  AEv_query i (fst e) (Ok r) :: fires i (fst e) r (snd e).
(* the table entry whose turn it is after k turns *)
Definition entry (t : subs) (k : nat) : option (command * list callback) := nth_error t (k mod length t).
(* turns in the order of the table, round after round, with these answers; the first is turn number k *)
Fixpoint turns (i : nat) (t : subs) (k : nat) (answers : list response) (l : list aevent) : Prop :=
  match answers with
  | [] => l = []
  | r :: rs => exists e l', entry t k = Some e /\ l = turn i e r ++ l' /\ turns i t (S k) rs l'
  end.
(* a turn that has begun: asked without success, or asked and not all callbacks called yet *)
Definition begun (i : nat) (t : subs) (k : nat) (l : list aevent) : Prop :=
  l = [] \/ exists e, entry t k = Some e /\
    ((exists x, l = [AEv_query i (fst e) (Raise x)])
     \/ exists r fs rest, snd e = fs ++ rest /\ l = AEv_query i (fst e) (Ok r) :: fires i (fst e) r fs).
Definition goes_round (i : nat) (t : subs) (l : list aevent) : Prop :=
  exists answers l1 l2, l = l1 ++ l2 /\ turns i t 0 answers l1 /\ begun i t (length answers) l2.

(* ---- non-blocking queries ---- *)
(* what Async.query(c) returns in this state *)
Definition latest (s : astate) (c : command) : response :=
  match dict_get cmd_eqb (a_cmds s) c with Some r => r | None => empty_response end.
(* the answers to c among these events, oldest first *)
Fixpoint answers_to (c : command) (l : list aevent) : list response :=
  match l with
  | [] => []
  | AEv_query _ c' (Ok r) :: t => if same c' c then r :: answers_to c t else answers_to c t
  | _ :: t => answers_to c t
  end.
Definition is_watched (s : astate) (c : command) : Prop := exists c', In c' (map fst (a_cmds s)) /\ same c' c = true.
(* c is watched in s and after every step of the schedule *)
Fixpoint stays_watched (c : command) (sched : list choice) (s : astate) : Prop :=
  is_watched s c /\ match sched with [] => True | ch :: sched => stays_watched c sched (astep ch s) end.
(* some thread has just received the answer r to c, and not stored it yet *)
Definition storing (s : astate) (c : command) (r : response) : Prop :=
  exists i c' it, nth_error (a_threads s) i = Some (T_store c' r it) /\ same c' c = true.

(* the user's thread is inside start() and has found the connection fine *)
Definition starting (p : mpc) : bool := match p with M_start2 | M_start3 | M_start4 | M_start5 | M_start6 => true | _ => false end.
(* a stop() call that was made when the log was base has returned, or raised AttributeError *)
Definition came_back (base : list aevent) (s : astate) : Prop :=
  exists new out, a_events s = base ++ new /\ In (AEv_return AStop out) new /\ (out = ODone \/ out = ORaised AttributeError).
(* calls that, when they return this, have stopped the loop *)
Definition stops (o : aop) (out : outcome) : Prop :=
  match o, out with AStop, ODone | AEnter, OBool _ | AClose, ODone => True | _, _ => False end.
(* the value returned by the last __enter__ (paused()) call; None: none yet, or it raised *)
Definition entered (e : aevent) : option (option bool) :=
  match e with AEv_return AEnter (OBool b) => Some (Some b) | AEv_return AEnter _ => Some None | _ => None end.
Fixpoint last_entered (l : list aevent) (d : option bool) : option bool :=
  match l with [] => d | e :: t => last_entered t (match entered e with Some x => x | None => d end) end.
