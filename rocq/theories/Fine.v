(* Model of obd/asynchronous.py at a finer grain: the calls that use the connection take time. No proofs in this file.

   In Async.v a query of the update thread (asynchronous.py:215) and the closing of the connection (122) are one step each. Here
   they are made of the single accesses to attributes and to the port that obd.py and elm327.py make, and other threads may move
   in between. Functions are those of Elm.v and Obd.v, statement by statement, in the notation of programs that can be interrupted. *)
From Coq Require Import ZArith List Bool.
From Verif Require Import Py Num Utils Protocol Decoders Command CommandTable Commands World Elm Obd Async.
Import ListNotations.
Open Scope Z_scope.

Definition conn : Type := (obd * world)%type.
(* a piece of code that uses the connection: finished, or about to make one access, after which it goes on depending on what it saw *)
Inductive code (A : Type) : Type :=
| Done (r : res A)
| Act (f : conn -> conn) (k : conn -> code A).
Arguments Done {A}. Arguments Act {A}.
(* undisturbed execution *)
Fixpoint run {A} (p : code A) (s : conn) : res A * conn :=
  match p with Done r => (r, s) | Act f k => run (k s) (f s) end.
Fixpoint steps {A} (p : code A) (s : conn) : nat :=
  match p with Done _ => O | Act f k => S (steps (k s) (f s)) end.
(* sequencing; exceptions end it *)
Fixpoint and_then {A B} (p : code A) (k : A -> code B) : code B :=
  match p with
  | Done (Ok a) => k a
  | Done (Raise e) => Done (Raise e)
  | Act f g => Act f (fun s => and_then (g s) k)
  end.
Definition pure {A} (a : A) : code A := Done (Ok a).
(* one access: to an attribute of the OBD object, or of the ELM327 object, or to the port *)
Definition obj {A} (m : MO A) : code A := Act (fun s => snd (m s)) (fun s => Done (fst (m s))).
Definition elm_ {A} (m : ME A) : code A := obj (on_interface m).
Notation "'let*' x <- m ; k" := (and_then m (fun x => k)) (at level 200, x name, m at level 100, k at level 200, right associativity).
Notation "'let*!' m ; k" := (and_then m (fun _ => k)) (at level 200, m at level 100, k at level 200, right associativity).

(* elm327.py:510-512, 537-539 *)
Definition f_io_failure : code unit :=
  let*! elm_ (set_status NOT_CONNECTED);
  let*! elm_ (emit_e EvClose);
  elm_ (set_port None).
(* port operations: flushInput, write, flush are one access, as is one read *)
Definition do_write (bs : bytes) : ME bool := fun '(e, w) => let '(ok, w) := port_write true bs w in (Ok ok, (e, w)).
Definition do_read : ME (option bytes) := fun '(e, w) => let '(r, w) := port_read w in (Ok r, (e, w)).
(* elm327.py:497-516  __write *)
Definition f_write (cmd : bytes) : code unit :=
  let* p <- elm_ (elm_of e_port);
  match p with
  | None => pure tt
  | Some _ => let* ok <- elm_ (do_write (cmd ++ [13])); if ok then pure tt else f_io_failure
  end.
(* elm327.py:530-552  the read loop. fuel is no part of the code: Coq asks for a bound; f_read takes one that is not reached
   (the reads still to come in the model's world, plus one) *)
Fixpoint f_loop (fuel : nat) (marker buffer : bytes) : code (option bytes) :=
  match fuel with
  | O => pure (Some buffer)
  | S k =>
      let* r <- elm_ do_read;
      match r with
      | None => pure None
      | Some [] => pure (Some buffer)
      | Some data => if contains marker (buffer ++ data) then pure (Some (buffer ++ data)) else f_loop k marker (buffer ++ data)
      end
  end.
(* elm327.py:518-570  __read *)
Definition f_read (marker : bytes) : code (list text) :=
  let* p <- elm_ (elm_of e_port);
  match p with
  | None => pure []
  | Some _ =>
      let* n <- obj (gets (fun s => length (w_reads (snd s))));
      let* r <- f_loop (S n) marker [];
      match r with
      | Some buffer => pure (clean buffer)
      | None => let*! f_io_failure; pure []
      end
  end.
(* elm327.py:471-495  __send *)
Fixpoint f_read_again (n : nat) (marker : bytes) (r : list text) : code (list text) :=
  match n with
  | O => pure r
  | S k => if nonempty r then pure r else (let* r <- f_read marker; f_read_again k marker r)
  end.
Definition f_send_gen (cmd : bytes) (delay : bool) (marker : bytes) : code (list text) :=
  let*! f_write cmd;
  let* r <- f_read marker;
  f_read_again (retries delay) marker r.
(* elm327.py:376-404  low_power *)
Definition f_elm_low_power : code (option (list text)) :=
  let* s <- elm_ (elm_of e_status);
  if status_eqb s NOT_CONNECTED then pure None
  else
    let* lines <- f_send_gen (str "ATLP") true ELM_LP_ACTIVE;
    let*! (if existsb (text_eqb (str "OK")) lines then elm_ (set_low_power true) else pure tt);
    pure (Some lines).
(* elm327.py:406-430  normal_power *)
Definition f_elm_normal_power : code (option (list text)) :=
  let* s <- elm_ (elm_of e_status);
  if status_eqb s NOT_CONNECTED then pure None
  else
    let* lines <- f_send_gen (str " ") false ELM_PROMPT;
    let*! elm_ (set_low_power false);
    pure (Some lines).
(* elm327.py:447-469  send_and_parse *)
Definition f_send_and_parse (cmd : bytes) : code (option (list message)) :=
  let* s <- elm_ (elm_of e_status);
  if status_eqb s NOT_CONNECTED then pure None
  else
    let* lp <- elm_ (elm_of e_low_power);
    let*! (if lp then (let*! f_elm_normal_power; pure tt) else pure tt);
    let* lines <- f_send_gen cmd false ELM_PROMPT;
    let* p <- elm_ (elm_of e_protocol);
    match p with
    | None => Done (Raise TypeError)
    | Some p => let* ms <- Done (call p lines); pure (Some ms)
    end.
(* elm327.py:432-445  close *)
Definition f_elm_close : code unit :=
  let*! elm_ (set_status NOT_CONNECTED);
  let*! elm_ (set_protocol_obj None);
  let* p <- elm_ (elm_of e_port);
  match p with
  | None => pure tt
  | Some _ =>
      let*! f_write (str "ATZ");
      let* p <- elm_ (elm_of e_port);
      match p with
      | None => Done (Raise AttributeError)
      | Some _ => let*! elm_ (emit_e EvClose); elm_ (set_port None)
      end
  end.
(* obd.py:144-154  __set_header *)
Definition f_set_header (h : bytes) : code unit :=
  let* last <- obj (obd_of o_last_header);
  if text_eqb h last then pure tt
  else
    let* r <- f_send_and_parse (str "AT SH " ++ h ++ str " ");
    match r with
    | None | Some [] => pure tt
    | Some ms =>
        if negb (text_eqb (join [10] (map m_raw ms)) (str "OK")) then pure tt
        else obj (set_last_header h)
    end.
(* obd.py:156-167  close *)
Definition f_obd_close : code unit :=
  let*! obj (set_supported []);
  let* i <- obj (obd_of o_interface);
  match i with
  | None => pure tt
  | Some _ =>
      let*! f_set_header ECU_HEADER_ENGINE;
      let*! f_elm_close;
      obj (set_interface None)
  end.
(* obd.py:263-298  query *)
Definition f_query (c : command) (force : bool) : code response :=
  let* st <- obj (obd_of obd_status);
  if status_eqb st NOT_CONNECTED then pure empty_response
  else
    let* allowed <- (if force then pure true else obj (fun s => (test_cmd (fst s) c, s)));
    if negb allowed then pure empty_response
    else
      let*! f_set_header (c_header c);
      let* cmd_string <- obj (obd_of (fun o => build_command_string o c));
      let* messages <- f_send_and_parse cmd_string;
      let*! (if nonempty cmd_string then obj (set_last_command cmd_string) else pure tt);
      let* counts <- obj (obd_of o_frame_counts);
      let*! (if dict_mem cmd_eqb counts c then pure tt
             else match messages with
                  | None => Done (Raise TypeError)
                  | Some ms => obj (set_frame_counts (dict_set cmd_eqb counts c (count_frames ms)))
                  end);
      match messages with
      | None | Some [] => pure empty_response
      | Some ms => Done (cmd_call c ms)
      end.
(* obd.py:176-188  low_power, normal_power *)
Definition f_obd_low_power : code unit :=
  let* i <- obj (obd_of o_interface);
  match i with None => pure tt | Some _ => let*! f_elm_low_power; pure tt end.
Definition f_obd_normal_power : code unit :=
  let* i <- obj (obd_of o_interface);
  match i with None => pure tt | Some _ => let*! f_elm_normal_power; pure tt end.

(* ------------------------------------------------------------------ *)
(* an Async object (Async.v: astate) and the code in progress: per update thread its query (asynchronous.py:215), and in the user's
   thread the closing of the connection (122) or a power call (obd.py:176-188, inherited). f_powers records the power calls that have
   returned *)
Record fstate := mkF { f_a : astate; f_asks : nat -> option (code response); f_closes : option (code unit); f_power : option (bool * code unit); f_powers : list (bool * res unit) }.
Definition f_conn (f : fstate) : conn := (a_obd (f_a f), a_world (f_a f)).
Definition f_upd (a : astate) (f : fstate) : fstate := mkF a (f_asks f) (f_closes f) (f_power f) (f_powers f).
Definition put_ask (i : nat) (x : option (code response)) (f : fstate) : fstate :=
  mkF (f_a f) (fun j => if Nat.eqb i j then x else f_asks f j) (f_closes f) (f_power f) (f_powers f).
Definition put_close (x : option (code unit)) (f : fstate) : fstate := mkF (f_a f) (f_asks f) x (f_power f) (f_powers f).
Definition put_power (x : option (bool * code unit)) (f : fstate) : fstate := mkF (f_a f) (f_asks f) (f_closes f) x (f_powers f).
Definition add_power (x : bool * res unit) (f : fstate) : fstate := mkF (f_a f) (f_asks f) (f_closes f) (f_power f) (f_powers f ++ [x]).

(* one step of update thread i, asynchronous.py:199-226; 215 in small steps *)
Definition f_thread (i : nat) (raises : bool) (f : fstate) : option fstate :=
  match nth_error (a_threads (f_a f)) i with
  | Some (T_query c it) =>
      Some (match f_asks f i with
            | None => put_ask i (Some (f_query c true)) f
            | Some (Act g k) => put_ask i (Some (k (f_conn f))) (f_upd (upd_obd (g (f_conn f)) (f_a f)) f)
            | Some (Done r) => put_ask i None (f_upd (set_tpc i (match r with Ok r => T_store c r it | Raise e => T_dead e end) (add_event (AEv_query i c r) (f_a f))) f)
            end)
  | _ => option_map (fun a => f_upd a f) (thread_step i raises (f_a f))
  end.
(* one step of an API call in the user's thread, asynchronous.py:64-197; 122 in small steps *)
Definition f_main (f : fstate) : option fstate :=
  match f_power f with
  | Some _ => None                                (* the user's thread is in a power call *)
  | None =>
      match a_pc (f_a f) with
      | M_close2 =>
          Some (match f_closes f with
                | None => put_close (Some f_obd_close) f
                | Some (Act g k) => put_close (Some (k (f_conn f))) (f_upd (upd_obd (g (f_conn f)) (f_a f)) f)
                | Some (Done r) => put_close None (f_upd (finish (match r with Ok _ => ODone | Raise e => ORaised e end) (f_a f)) f)
                end)
      | _ => option_map (fun a => f_upd a f) (main_step (f_a f))
      end
  end.
(* the user's thread calls low_power() or normal_power() between two of its other calls, or goes on with the one it is in *)
Definition f_do_power (low : bool) (f : fstate) : option fstate :=
  match a_pc (f_a f) with
  | M_idle =>
      Some (match f_power f with
            | None => put_power (Some (low, if low then f_obd_low_power else f_obd_normal_power)) f
            | Some (b, Act g k) => put_power (Some (b, k (f_conn f))) (f_upd (upd_obd (g (f_conn f)) (f_a f)) f)
            | Some (b, Done r) => put_power None (add_power (b, r) f)
            end)
  | _ => None
  end.
(* a scheduler's choice *)
Inductive fchoice : Set := FMain | FThread (i : nat) (raises : bool) | FPower (low : bool).
Definition fstep (ch : fchoice) (f : fstate) : fstate :=
  match (match ch with FMain => f_main f | FThread i b => f_thread i b f | FPower low => f_do_power low f end) with
  | Some f' => f'
  | None => f
  end.
Definition frun (sched : list fchoice) (f : fstate) : fstate := fold_left (fun f ch => fstep ch f) sched f.
(* asynchronous.py:48-58 *)
Definition new_fine (s : astate) : fstate := mkF s (fun _ => None) None None [].
