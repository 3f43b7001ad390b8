(* Model of obd/asynchronous.py: the user's thread and the update threads as interleaved atomic steps.
   No proofs in this file.

   A step is (at most) one access to the shared attributes __commands, __callbacks, __running, __was_running, __thread,
   or one blocking call on the connection. Simplifications: a call of OBD.query / test_cmd / OBD.close is one step (the
   connection is used by one thread at a time, see AsyncFacts); the updates of __commands and __callbacks made by one
   watch / unwatch / unwatch_all, after it has found __running false, are one step (C57's theorem shows that no
   update thread looks at them at that moment); iteration is over the keys present when the loop starts, with Python's check
   that the size has not changed; one user thread; callbacks do not call the API, but may raise. *)
From Coq Require Import ZArith List Bool.
From Verif Require Import Py Num Utils Protocol Decoders Command CommandTable Commands World Elm Obd.
Import ListNotations.
Open Scope Z_scope.

(* a callable, identified by a number *)
Definition callback := Z.

(* asynchronous.py:51-58  the attributes of an Async object besides those of OBD. a_gen counts how often
   __commands was bound to a new dict; a_threads lists the Thread objects ever created, by number. *)
Definition commands_t := list (command * response).
Definition callbacks_t := list (command * list callback).

(* ------------------------------------------------------------------ *)
(* the subscription table: asynchronous.py:140-149, the body of watch after its checks. callback None: not given
   (or not callable). self.__callbacks[c] raises KeyError if missing. *)
Definition watch_table (c : command) (cb : option callback) (t : commands_t * callbacks_t)
  : res (commands_t * callbacks_t) :=
  let '(cmds, cbs) := t in
  let '(cmds, cbs) := if dict_mem cmd_eqb cmds c then (cmds, cbs)
                      else (dict_set cmd_eqb cmds c empty_response, dict_set cmd_eqb cbs c []) in
  match cb with
  | None => Ok (cmds, cbs)
  | Some f =>
      match dict_get cmd_eqb cbs c with
      | None => Raise KeyError
      | Some l => if existsb (Z.eqb f) l then Ok (cmds, cbs)
                  else Ok (cmds, dict_set cmd_eqb cbs c (l ++ [f]))
      end
  end.
(* list.remove(x): the first occurrence *)
Fixpoint list_remove (x : Z) (l : list Z) : list Z :=
  match l with
  | [] => []
  | y :: t => if y =? x then t else y :: list_remove x t
  end.
(* asynchronous.py:164-175  the body of unwatch *)
Definition unwatch_table (c : command) (cb : option callback) (t : commands_t * callbacks_t)
  : res (commands_t * callbacks_t) :=
  let '(cmds, cbs) := t in
  if dict_mem cmd_eqb cmds c then
    let all := Ok (dict_pop cmd_eqb cmds c, dict_pop cmd_eqb cbs c) in
    match cb with
    | None => all
    | Some f =>
        match dict_get cmd_eqb cbs c with
        | None => Raise KeyError
        | Some l =>
            if existsb (Z.eqb f) l then
              let l' := list_remove f l in
              let cbs := dict_set cmd_eqb cbs c l' in
              Ok (if nonempty l' then (cmds, cbs) else (dict_pop cmd_eqb cmds c, cbs))
            else all
        end
    end
  else Ok (cmds, cbs).

(* ------------------------------------------------------------------ *)
(* where an update thread is in run(), asynchronous.py:199-226. it = remaining keys, size and number of the dict
   iterated over *)
Record iter := mkIter { it_keys : list command; it_size : nat; it_gen : nat }.
Inductive tpc : Type :=
| T_new                                         (* created, not started *)
| T_while                                       (* 203 while self.__running *)
| T_len                                         (* 205 if len(self.__commands) > 0 *)
| T_for                                         (* 207 iter(self.__commands) *)
| T_next (it : iter)                            (* 207 next *)
| T_conn (c : command) (it : iter)              (* 208 self.is_connected() *)
| T_disc1                                       (* 210 self.__running = False *)
| T_disc2                                       (* 211 self.__thread = None *)
| T_return                                      (* 212 return *)
| T_query (c : command) (it : iter)             (* 215 super().query(c, force=True) *)
| T_store (c : command) (r : response) (it : iter)   (* 218 self.__commands[c] = r *)
| T_cbs (c : command) (r : response) (it : iter)     (* 221 self.__callbacks[c] *)
| T_call (c : command) (r : response) (cbs : list callback) (it : iter)  (* 221-222 the next callback *)
| T_sleep                                       (* 223 *)
| T_idle                                        (* 226 *)
| T_done                                        (* returned *)
| T_dead (e : exn).                             (* ended by an exception *)
Definition alive (t : tpc) : bool := match t with T_new | T_done | T_dead _ => false | _ => true end.

(* API calls of the user's thread *)
Inductive aop : Type :=
| AStart | AStop | AEnter | AExit | AClose
| AWatch (c : command) (cb : option callback) (force : bool)
| AUnwatch (c : command) (cb : option callback)
| AUnwatchAll
| AQuery (c : command).
(* who called stop() *)
Inductive after_stop : Set := K_stop | K_enter | K_close.
Inductive mpc : Type :=
| M_idle
| M_start1 | M_start2 | M_start3 | M_start4 | M_start5 | M_start6       (* 66, 70, 74, 76, 77-78, 79 *)
| M_stop1 (k : after_stop) | M_stop2 (k : after_stop) | M_stop3 (k : after_stop)  (* 83, 85, 86 self.__thread *)
| M_stop4 (id : nat) (k : after_stop) | M_stop5 (k : after_stop)        (* 86 join(), 87 *)
| M_enter1 | M_exit1 | M_exit2                                          (* 105; 114 *)
| M_close2                                                              (* 122 *)
| M_watch (c : command) (cb : option callback) (force : bool)           (* 136-149 *)
| M_unwatch (c : command) (cb : option callback)                        (* 162-175 *)
| M_unwatch_all.                                                        (* 184-186 *)

(* what a finished call returned: nothing, was_running, a response; or it raised *)
Inductive outcome : Type :=
| ODone | OBool (b : bool) | OResponse (r : response) | ORaised (e : exn).

(* observable events; thread number first *)
Inductive aevent : Type :=
| AEv_query (t : nat) (c : command) (r : res response)   (* a query was made on the connection *)
| AEv_fire (t : nat) (c : command) (cb : callback) (r : response)   (* a callback was called *)
| AEv_start (t : nat)
| AEv_return (o : aop) (out : outcome).                  (* an API call returned or raised *)

Record astate := mkA {
  a_cmds : commands_t; a_cbs : callbacks_t; a_gen : nat;
  a_running : bool; a_was_running : bool; a_thread : option nat;
  a_threads : list tpc;
  a_obd : obd; a_world : world;
  a_pc : mpc; a_op : aop; a_prog : list aop;
  a_events : list aevent }.

Definition upd_dicts (d : commands_t * callbacks_t) (s : astate) : astate :=
  mkA (fst d) (snd d) (a_gen s) (a_running s) (a_was_running s) (a_thread s) (a_threads s) (a_obd s) (a_world s) (a_pc s) (a_op s) (a_prog s) (a_events s).
Definition upd_gen (g : nat) (s : astate) : astate :=
  mkA (a_cmds s) (a_cbs s) g (a_running s) (a_was_running s) (a_thread s) (a_threads s) (a_obd s) (a_world s) (a_pc s) (a_op s) (a_prog s) (a_events s).
Definition upd_running (b : bool) (s : astate) : astate :=
  mkA (a_cmds s) (a_cbs s) (a_gen s) b (a_was_running s) (a_thread s) (a_threads s) (a_obd s) (a_world s) (a_pc s) (a_op s) (a_prog s) (a_events s).
Definition upd_was (b : bool) (s : astate) : astate :=
  mkA (a_cmds s) (a_cbs s) (a_gen s) (a_running s) b (a_thread s) (a_threads s) (a_obd s) (a_world s) (a_pc s) (a_op s) (a_prog s) (a_events s).
Definition upd_thread (t : option nat) (s : astate) : astate :=
  mkA (a_cmds s) (a_cbs s) (a_gen s) (a_running s) (a_was_running s) t (a_threads s) (a_obd s) (a_world s) (a_pc s) (a_op s) (a_prog s) (a_events s).
Definition upd_threads (ts : list tpc) (s : astate) : astate :=
  mkA (a_cmds s) (a_cbs s) (a_gen s) (a_running s) (a_was_running s) (a_thread s) ts (a_obd s) (a_world s) (a_pc s) (a_op s) (a_prog s) (a_events s).
Definition upd_obd (ow : obd * world) (s : astate) : astate :=
  mkA (a_cmds s) (a_cbs s) (a_gen s) (a_running s) (a_was_running s) (a_thread s) (a_threads s) (fst ow) (snd ow) (a_pc s) (a_op s) (a_prog s) (a_events s).
Definition upd_pc (p : mpc) (s : astate) : astate :=
  mkA (a_cmds s) (a_cbs s) (a_gen s) (a_running s) (a_was_running s) (a_thread s) (a_threads s) (a_obd s) (a_world s) p (a_op s) (a_prog s) (a_events s).
Definition upd_prog (o : aop) (l : list aop) (s : astate) : astate :=
  mkA (a_cmds s) (a_cbs s) (a_gen s) (a_running s) (a_was_running s) (a_thread s) (a_threads s) (a_obd s) (a_world s) (a_pc s) o l (a_events s).
Definition add_event (e : aevent) (s : astate) : astate :=
  mkA (a_cmds s) (a_cbs s) (a_gen s) (a_running s) (a_was_running s) (a_thread s) (a_threads s) (a_obd s) (a_world s) (a_pc s) (a_op s) (a_prog s) (a_events s ++ [e]).

(* the call in progress returns *)
Definition finish (out : outcome) (s : astate) : astate :=
  upd_pc M_idle (add_event (AEv_return (a_op s) out) s).

Fixpoint set_nth {A} (n : nat) (x : A) (l : list A) : list A :=
  match n, l with
  | O, _ :: t => x :: t
  | S k, y :: t => y :: set_nth k x t
  | _, [] => []
  end.
Definition set_tpc (i : nat) (p : tpc) (s : astate) : astate := upd_threads (set_nth i p (a_threads s)) s.

(* has thread i ended? *)
Definition ended (i : nat) (s : astate) : bool :=
  match nth_error (a_threads s) i with Some T_done => true | Some (T_dead _) => true | _ => false end.

Definition async_connected (s : astate) : bool := is_connected (a_obd s).

(* one step of an API call in the user's thread; None = it has to wait, or has nothing to do *)
Definition main_step (s : astate) : option astate :=
  match a_pc s with
  | M_idle =>
      match a_prog s with
      | [] => None
      | o :: rest =>
          let s := upd_prog o rest s in
          Some (match o with
                | AStart => upd_pc M_start1 s
                | AStop => upd_pc (M_stop1 K_stop) s
                | AEnter => upd_pc M_enter1 s
                | AExit => upd_pc M_exit1 s
                | AClose => upd_pc (M_stop1 K_close) s                   (* 121 *)
                | AWatch c cb force =>                                   (* 132 if self.__running *)
                    if a_running s then finish ODone s else upd_pc (M_watch c cb force) s
                | AUnwatch c cb =>                                       (* 159 *)
                    if a_running s then finish ODone s else upd_pc (M_unwatch c cb) s
                | AUnwatchAll =>                                         (* 181 *)
                    if a_running s then finish ODone s else upd_pc M_unwatch_all s
                | AQuery c =>                                            (* 188-197 *)
                    finish (OResponse (match dict_get cmd_eqb (a_cmds s) c with
                                       | Some r => r
                                       | None => empty_response
                                       end)) s
                end)
      end
  (* start, 64-79; __exit__ ends in start() as well *)
  | M_start1 => Some (if negb (async_connected s) then finish (match a_op s with AExit => OBool false | _ => ODone end) s else upd_pc M_start2 s)
  | M_start2 => Some (if nonempty (a_cmds s) then upd_pc M_start3 s else finish (match a_op s with AExit => OBool false | _ => ODone end) s)
  | M_start3 => Some (match a_thread s with None => upd_pc M_start4 s | Some _ => finish (match a_op s with AExit => OBool false | _ => ODone end) s end)
  | M_start4 => Some (upd_pc M_start5 (upd_running true s))
  | M_start5 => Some (upd_pc M_start6 (upd_thread (Some (length (a_threads s))) (upd_threads (a_threads s ++ [T_new]) s)))
  | M_start6 =>
      Some (match a_thread s with
            | None => finish (ORaised AttributeError) s
            | Some i => finish (match a_op s with AExit => OBool false | _ => ODone end) (add_event (AEv_start i) (set_tpc i T_while s))
            end)
  (* stop, 81-88 *)
  | M_stop1 k =>
      Some (match a_thread s with
            | Some _ => upd_pc (M_stop2 k) s
            | None => match k with
                      | K_stop => finish ODone s
                      | K_enter => finish (OBool (a_was_running s)) s   (* 107 *)
                      | K_close => upd_pc M_close2 s
                      end
            end)
  | M_stop2 k => Some (upd_pc (M_stop3 k) (upd_running false s))
  | M_stop3 k => Some (match a_thread s with
                       | None => finish (ORaised AttributeError) s      (* None.join() *)
                       | Some i => upd_pc (M_stop4 i k) s
                       end)
  | M_stop4 i k => if ended i s then Some (upd_pc (M_stop5 k) s) else None   (* join() blocks *)
  | M_stop5 k => Some (match k with
                       | K_stop => finish ODone (upd_thread None s)
                       | K_enter => finish (OBool (a_was_running s)) (upd_thread None s)
                       | K_close => upd_pc M_close2 (upd_thread None s)
                       end)
  (* __enter__, 105; __exit__, 114-117 *)
  | M_enter1 => Some (upd_pc (M_stop1 K_enter) (upd_was (a_running s) s))
  | M_exit1 => Some (if a_running s then finish (OBool false) s else upd_pc M_exit2 s)
  | M_exit2 => Some (if a_was_running s then upd_pc M_start1 s else finish (OBool false) s)
  (* close, 122 *)
  | M_close2 =>
      let '(r, ow) := obd_close (a_obd s, a_world s) in
      Some (finish (match r with Ok _ => ODone | Raise e => ORaised e end) (upd_obd ow s))
  | M_watch c cb force =>
      Some (match (if force then Ok true else test_cmd (a_obd s) c) with
            | Raise e => finish (ORaised e) s
            | Ok false => finish ODone s
            | Ok true =>
                match watch_table c cb (a_cmds s, a_cbs s) with
                | Ok d => finish ODone (upd_dicts d s)
                | Raise e => finish (ORaised e) s
                end
            end)
  | M_unwatch c cb =>
      Some (match unwatch_table c cb (a_cmds s, a_cbs s) with
            | Ok d => finish ODone (upd_dicts d s)
            | Raise e => finish (ORaised e) s
            end)
  | M_unwatch_all => Some (finish ODone (upd_gen (S (a_gen s)) (upd_dicts ([], []) s)))
  end.

(* one step of update thread i; raises says whether a callback called in this step raises an exception *)
Definition thread_step (i : nat) (raises : bool) (s : astate) : option astate :=
  match nth_error (a_threads s) i with
  | None => None
  | Some pc =>
      match pc with
      | T_new | T_done | T_dead _ => None
      | T_while => Some (set_tpc i (if a_running s then T_len else T_done) s)
      | T_len => Some (set_tpc i (if nonempty (a_cmds s) then T_for else T_idle) s)
      | T_for => Some (set_tpc i (T_next (mkIter (map fst (a_cmds s)) (length (a_cmds s)) (a_gen s))) s)
      | T_next it =>
          Some (if Nat.eqb (it_gen it) (a_gen s) && negb (Nat.eqb (it_size it) (length (a_cmds s)))
                then set_tpc i (T_dead RuntimeError) s           (* dictionary changed size during iteration *)
                else match it_keys it with
                     | [] => set_tpc i T_sleep s
                     | c :: rest => set_tpc i (T_conn c (mkIter rest (it_size it) (it_gen it))) s
                     end)
      | T_conn c it => Some (set_tpc i (if async_connected s then T_query c it else T_disc1) s)
      | T_disc1 => Some (set_tpc i T_disc2 (upd_running false s))
      | T_disc2 => Some (set_tpc i T_return (upd_thread None s))
      | T_return => Some (set_tpc i T_done s)
      | T_query c it =>
          let '(r, ow) := query c true (a_obd s, a_world s) in
          let s := add_event (AEv_query i c r) (upd_obd ow s) in
          Some (set_tpc i (match r with Ok r => T_store c r it | Raise e => T_dead e end) s)
      | T_store c r it =>
          Some (set_tpc i (T_cbs c r it) (upd_dicts (dict_set cmd_eqb (a_cmds s) c r, a_cbs s) s))
      | T_cbs c r it =>
          Some (set_tpc i (match dict_get cmd_eqb (a_cbs s) c with
                           | Some l => T_call c r l it
                           | None => T_dead KeyError
                           end) s)
      | T_call c r [] it => Some (set_tpc i (T_next it) s)
      | T_call c r (f :: fs) it =>
          Some (set_tpc i (if raises then T_dead CustomError else T_call c r fs it) (add_event (AEv_fire i c f r) s))
      | T_sleep => Some (set_tpc i T_while s)
      | T_idle => Some (set_tpc i T_while s)
      end
  end.

(* a scheduler's choice: the user's thread or an update thread; a choice that cannot move is skipped *)
Inductive choice : Set := CMain | CThread (i : nat) (raises : bool).
Definition astep (ch : choice) (s : astate) : astate :=
  match (match ch with CMain => main_step s | CThread i b => thread_step i b s end) with
  | Some s' => s'
  | None => s
  end.
Definition arun (sched : list choice) (s : astate) : astate := fold_left (fun s ch => astep ch s) sched s.

(* asynchronous.py:48-58  a freshly made object on a connection, with the API calls the user is going to make *)
Definition new_async (o : obd) (w : world) (prog : list aop) : astate :=
  mkA [] [] O false false None [] o w M_idle AStop prog [].
