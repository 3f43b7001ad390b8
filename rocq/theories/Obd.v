(* Model of obd/obd.py. No proofs in this file. *)
From Coq Require Import ZArith List Bool.
From Verif Require Import Py Num Utils Protocol Decoders Command CommandTable Commands World Elm.
Import ListNotations.
Open Scope Z_scope.

(* obd.py:54-60  the attributes of an OBD object. supported_commands is a set: a list without equal elements. *)
Record obd := mkObd {
  o_interface : option elm;
  o_supported : list command;
  o_fast : bool;
  o_timeout : Z;
  o_last_command : bytes;
  o_last_header : bytes;
  o_frame_counts : list (command * nat) }.
Definition MO (A : Type) : Type := M (obd * world) A.

Definition set_interface (i : option elm) : MO unit :=
  fun '(o, w) => (Ok tt, (mkObd i (o_supported o) (o_fast o) (o_timeout o) (o_last_command o) (o_last_header o) (o_frame_counts o), w)).
Definition set_supported (l : list command) : MO unit :=
  fun '(o, w) => (Ok tt, (mkObd (o_interface o) l (o_fast o) (o_timeout o) (o_last_command o) (o_last_header o) (o_frame_counts o), w)).
Definition set_last_command (c : bytes) : MO unit :=
  fun '(o, w) => (Ok tt, (mkObd (o_interface o) (o_supported o) (o_fast o) (o_timeout o) c (o_last_header o) (o_frame_counts o), w)).
Definition set_last_header (h : bytes) : MO unit :=
  fun '(o, w) => (Ok tt, (mkObd (o_interface o) (o_supported o) (o_fast o) (o_timeout o) (o_last_command o) h (o_frame_counts o), w)).
Definition set_frame_counts (l : list (command * nat)) : MO unit :=
  fun '(o, w) => (Ok tt, (mkObd (o_interface o) (o_supported o) (o_fast o) (o_timeout o) (o_last_command o) (o_last_header o) l, w)).
Definition obd_of {A} (f : obd -> A) : MO A := gets (fun s => f (fst s)).

(* self.interface.method(...): an AttributeError if there is no interface *)
Definition on_interface {A} (m : ME A) : MO A :=
  fun '(o, w) =>
    match o_interface o with
    | None => (Raise AttributeError, (o, w))
    | Some e =>
        let '(r, (e, w)) := m (e, w) in
        (r, (mkObd (Some e) (o_supported o) (o_fast o) (o_timeout o) (o_last_command o) (o_last_header o) (o_frame_counts o), w))
    end.

(* obd.py:169-174  status *)
Definition obd_status (o : obd) : status :=
  match o_interface o with None => NOT_CONNECTED | Some e => e_status e end.
(* obd.py:199-218  protocol_name, protocol_id, port_name *)
Definition obd_protocol_name (o : obd) : res text :=
  match o_interface o with None => Ok [] | Some e => elm_protocol_name e end.
Definition obd_protocol_id (o : obd) : res text :=
  match o_interface o with None => Ok [] | Some e => elm_protocol_id e end.
Definition obd_port_name (o : obd) : text :=
  match o_interface o with None => [] | Some e => elm_port_name e end.
(* obd.py:220-227  is_connected *)
Definition is_connected (o : obd) : bool := status_eqb (obd_status o) CAR_CONNECTED.

(* cmd in set / set.add(cmd) *)
Definition in_set (c : command) (l : list command) : bool := existsb (fun c' => cmd_eqb c' c) l.
Definition set_add (c : command) (l : list command) : list command := if in_set c l then l else l ++ [c].

(* obd.py:237-242  supports *)
Definition supports (o : obd) (c : command) : bool := in_set c (o_supported o).
(* obd.py:244-261  test_cmd *)
Definition test_cmd (o : obd) (c : command) : res bool :=
  if negb (supports o c) then Ok false
  else if oz_eqb (c_mode c) (Some 6) then
    match o_interface o with
    | None => Raise AttributeError
    | Some e =>
        let! id := elm_protocol_id e in
        Ok (existsb (text_eqb id) [str "6"; str "7"; str "8"; str "9"])
    end
  else Ok true.

(* obd.py:144-154  __set_header; its return value is not used by any caller *)
Definition set_header (h : bytes) : MO unit :=
  do last <- obd_of o_last_header;
  if text_eqb h last then ret tt
  else
    do r <- on_interface (send_and_parse (str "AT SH " ++ h ++ str " "));
    match r with
    | None | Some [] => ret tt
    | Some ms =>
        if negb (text_eqb (join [10] (map m_raw ms)) (str "OK")) then ret tt
        else set_last_header h
    end.

(* obd.py:156-167  close *)
Definition obd_close : MO unit :=
  do! set_supported [];
  do i <- obd_of o_interface;
  match i with
  | None => ret tt
  | Some _ =>
      do! set_header ECU_HEADER_ENGINE;
      do! on_interface elm_close;
      set_interface None
  end.

(* obd.py:300-315  __build_command_string *)
Definition build_command_string (o : obd) (c : command) : bytes :=
  let s := c_command c in
  let s := if o_fast o && c_fast c then
             match dict_get cmd_eqb (o_frame_counts o) c with
             | Some n => s ++ str_nat n
             | None => s
             end
           else s in
  if o_fast o && text_eqb s (o_last_command o) then [] else s.

(* sum([len(m.frames) for m in messages]) *)
Definition count_frames (ms : list message) : nat := fold_right (fun m n => (length (m_frames m) + n)%nat) O ms.

(* obd.py:263-298  query *)
Definition query (c : command) (force : bool) : MO response :=
  do st <- obd_of obd_status;
  if status_eqb st NOT_CONNECTED then ret empty_response
  else
    do allowed <- (if force then ret true else (fun s => (test_cmd (fst s) c, s)));
    if negb allowed then ret empty_response
    else
      do! set_header (c_header c);
      do cmd_string <- obd_of (fun o => build_command_string o c);
      do messages <- on_interface (send_and_parse cmd_string);
      do! (if nonempty cmd_string then set_last_command cmd_string else ret tt);
      do counts <- obd_of o_frame_counts;
      do! (if dict_mem cmd_eqb counts c then ret tt
          else match messages with
               | None => raise TypeError
               | Some ms => set_frame_counts (dict_set cmd_eqb counts c (count_frames ms))
               end);
      match messages with
      | None | Some [] => ret empty_response
      | Some ms => of_res (cmd_call c ms)
      end.

(* obd.py:135-140  one set bit of a PID listing; pid = get.pid + i + 1 *)
Definition enable_pid (mode pid : Z) (l : list command) : list command :=
  let l := if has_pid mode pid then
             match get_pid mode pid with Some c => set_add c l | None => l end
           else l in
  if (mode =? 1) && has_pid 2 pid then
    match get_pid 2 pid with Some c => set_add c l | None => l end
  else l.
(* obd.py:128-140  loop over the bits *)
Fixpoint enable_bits (mode pid : Z) (bits : list bool) (l : list command) : list command :=
  match bits with
  | [] => l
  | b :: t => enable_bits mode (pid + 1) t (if b then enable_pid mode (pid + 1) l else l)
  end.
(* obd.py:114-140  one PID listing command. The value of a non-null response to it is a BitArray. *)
Definition load_one (get : command) : MO unit :=
  do ok <- (fun s => (test_cmd (fst s) get, s));
  if negb ok then ret tt
  else
    do response <- query get false;
    if is_null response then ret tt
    else
      match r_value response, c_mode get, c_pid get with
      | VBits bits, Some mode, Some pid =>
          do l <- obd_of o_supported;
          set_supported (enable_bits mode pid (ba_iter bits) l)
      | _, _, _ => raise TypeError
      end.
Fixpoint load_all (gets_ : list command) : MO unit :=
  match gets_ with
  | [] => ret tt
  | g :: t => do! load_one g; load_all t
  end.
(* obd.py:102-142  __load_commands *)
Definition load_commands : MO unit :=
  do st <- obd_of obd_status;
  if negb (status_eqb st CAR_CONNECTED) then ret tt else load_all pid_getters.

(* constructor arguments *)
Record config := mkConfig {
  cf_baudrate : option Z; cf_protocol : option text; cf_fast : bool; cf_timeout : Z;
  cf_check_voltage : bool; cf_start_low_power : bool }.

(* self.interface = ELM327(port, ...) *)
Definition connect_port (cf : config) (name : text) : MO unit :=
  fun '(o, w) =>
    match new_elm name (cf_baudrate cf) (cf_protocol cf) (o_timeout o) (cf_check_voltage cf) (cf_start_low_power cf) w with
    | (Ok e, w) => set_interface (Some e) (o, w)
    | (Raise x, w) => (Raise x, (o, w))
    end.
(* obd.py:83-90  the comparison is one of strings *)
Fixpoint connect_scan (cf : config) (ports : list text) : MO unit :=
  match ports with
  | [] => ret tt
  | p :: t =>
      do! connect_port cf p;
      do st <- obd_of obd_status;
      if text_leb (status_text ELM_CONNECTED) (status_text st) then ret tt else connect_scan cf t
  end.
(* obd.py:97-100 *)
Definition close_if_failed : MO unit :=
  do st <- obd_of obd_status;
  if status_eqb st NOT_CONNECTED then obd_close else ret tt.
(* obd.py:68-100  __connect; scan stands for the result of scan_serial() *)
Definition connect (cf : config) (portstr : option text) (scan : list text) : MO unit :=
  match portstr with
  | None => match scan with
            | [] => ret tt
            | _ => do! connect_scan cf scan; close_if_failed
            end
  | Some p => do! connect_port cf p; close_if_failed
  end.
Definition initial_obd (cf : config) : obd :=
  mkObd None (fold_left (fun l c => set_add c l) base_commands []) (cf_fast cf) (cf_timeout cf) [] ECU_HEADER_ENGINE [].
(* obd.py:52-66  OBD(...) *)
Definition new_obd (cf : config) (portstr : option text) (scan : list text) (w : world) : res unit * (obd * world) :=
  (do! connect cf portstr scan; load_commands) (initial_obd cf, w).

(* obd.py:176-188  low_power, normal_power; without an interface they return the status text *)
Definition obd_low_power : MO unit :=
  do i <- obd_of o_interface;
  match i with None => ret tt | Some _ => do! on_interface elm_low_power; ret tt end.
Definition obd_normal_power : MO unit :=
  do i <- obd_of o_interface;
  match i with None => ret tt | Some _ => do! on_interface elm_normal_power; ret tt end.

(* what a user does with a connection after it was made *)
Inductive op : Type :=
| OpQuery (c : command) (force : bool)
| OpLowPower
| OpNormalPower
| OpClose
| OpAdd (c : command).        (* supported_commands.add(c), docs/Connections.md:162-174, docs/Custom Commands.md:45-52 *)
Definition run_op (o : op) : MO (option response) :=
  match o with
  | OpQuery c force => do r <- query c force; ret (Some r)
  | OpLowPower => do! obd_low_power; ret None
  | OpNormalPower => do! obd_normal_power; ret None
  | OpClose => do! obd_close; ret None
  | OpAdd c => do l <- obd_of o_supported; do! set_supported (set_add c l); ret None
  end.
(* a history of operations; one that raises does not stop the user from going on *)
Fixpoint run_ops (ops : list op) (s : obd * world) : list (res (option response)) * (obd * world) :=
  match ops with
  | [] => ([], s)
  | o :: t => let '(r, s) := run_op o s in let '(rs, s) := run_ops t s in (r :: rs, s)
  end.
