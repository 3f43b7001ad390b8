(* Model of how the arguments of the API's calls are passed: Python's binding of positional and keyword arguments, and the signatures
   in obd.py, asynchronous.py, elm327.py, OBDCommand.py. No proofs in this file. *)
From Coq Require Import ZArith List Bool.
From Verif Require Import Py Num Utils Protocol Decoders Command CommandTable Commands World Elm Obd Async Timed.
Import ListNotations.
Open Scope Z_scope.

(* the values that are passed: None, a str, a bytes, an int, a bool, a float (a number of seconds, here in milliseconds), a function (a
   callback, by number, or a decoder), a command *)
Inductive arg : Type :=
| PNone | PText (t : text) | PBytes (b : bytes) | PInt (z : Z) | PBool (b : bool) | PSeconds (ms : Z) | PCallback (f : callback) | PDecoder (d : decoder) | PCommand (c : command).
(* the parameters in order, with their defaults *)
Definition signature := list (text * option arg).

(* Python's call of a function with positional arguments pos and keyword arguments kw: a parameter gets the positional argument if there is one, else the keyword argument with its name, else its default;
   TypeError for a parameter without any, for one with two, for surplus positional arguments and for unknown keywords *)
Fixpoint keyword (n : text) (kw : list (text * arg)) : option arg :=
  match kw with [] => None | (k, v) :: t => if text_eqb k n then Some v else keyword n t end.
Fixpoint fill (sg : signature) (pos : list arg) (kw : list (text * arg)) : res (list arg) :=
  match sg, pos with
  | [], [] => Ok []
  | [], _ :: _ => Raise TypeError
  | (n, d) :: sg, v :: pos =>
      match keyword n kw with
      | Some _ => Raise TypeError
      | None => let! l := fill sg pos kw in Ok (v :: l)
      end
  | (n, d) :: sg, [] =>
      match keyword n kw, d with
      | Some v, _ => let! l := fill sg [] kw in Ok (v :: l)
      | None, Some v => let! l := fill sg [] kw in Ok (v :: l)
      | None, None => Raise TypeError
      end
  end.
Definition call_args (sg : signature) (pos : list arg) (kw : list (text * arg)) : res (list arg) :=
  if forallb (fun k => existsb (text_eqb (fst k)) (map fst sg)) kw then fill sg pos kw else Raise TypeError.

(* obd.py:52-53 (without self) *)
Definition obd_sig : signature :=
  [(str "portstr", Some PNone); (str "baudrate", Some PNone); (str "protocol", Some PNone); (str "fast", Some (PBool true));
   (str "timeout", Some (PSeconds 100)); (str "check_voltage", Some (PBool true)); (str "start_low_power", Some (PBool false))].
(* obd.py:68-69 *)
Definition connect_sig : signature :=
  [(str "portstr", None); (str "baudrate", None); (str "protocol", None); (str "check_voltage", None); (str "start_low_power", None)].
(* elm327.py:108-109 *)
Definition elm_sig : signature :=
  [(str "portname", None); (str "baudrate", None); (str "protocol", None); (str "timeout", None); (str "check_voltage", Some (PBool true)); (str "start_low_power", Some (PBool false))].
(* asynchronous.py:48-50 *)
Definition async_sig : signature :=
  [(str "portstr", Some PNone); (str "baudrate", Some PNone); (str "protocol", Some PNone); (str "fast", Some (PBool true));
   (str "timeout", Some (PSeconds 100)); (str "check_voltage", Some (PBool true)); (str "start_low_power", Some (PBool false)); (str "delay_cmds", Some (PSeconds 250))].
(* obd.py:263, asynchronous.py:188, 124, 151 *)
Definition obd_query_sig : signature := [(str "cmd", None); (str "force", Some (PBool false))].
Definition async_query_sig : signature := [(str "c", None); (str "force", Some (PBool false))].
Definition watch_sig : signature := [(str "c", None); (str "callback", Some PNone); (str "force", Some (PBool false))].
Definition unwatch_sig : signature := [(str "c", None); (str "callback", Some PNone)].
(* OBDCommand.py:43-51 *)
Definition command_sig : signature :=
  [(str "name", None); (str "desc", None); (str "command", None); (str "_bytes", None); (str "decoder", None); (str "ecu", Some (PInt ECU_ALL)); (str "fast", Some (PBool false)); (str "header", Some (PBytes ECU_HEADER_ENGINE))].

(* what ELM327(...) gets: the arguments that obd.py:80-82, 88-90 pass on by position *)
Definition obd_passes_on (vs : list arg) : res (list arg) :=
  match vs with
  | [portstr; baudrate; protocol; fast; timeout; check_voltage; start_low_power] =>
      let! c := call_args connect_sig [portstr; baudrate; protocol; check_voltage; start_low_power] [] in   (* 63-64 *)
      match c with
      | [portstr; baudrate; protocol; check_voltage; start_low_power] => call_args elm_sig [portstr; baudrate; protocol; timeout; check_voltage; start_low_power] []
      | _ => Raise TypeError
      end
  | _ => Raise TypeError
  end.
(* OBD(...): the values of the attribute fast and of what ELM327(...) gets *)
Definition obd_new (pos : list arg) (kw : list (text * arg)) : res (arg * list arg) :=
  let! vs := call_args obd_sig pos kw in
  let! e := obd_passes_on vs in
  Ok (nth 3 vs PNone, e).
(* Async(...), asynchronous.py:52-53, 58: all arguments but delay_cmds by position to OBD.__init__; and the value of delay_cmds *)
Definition async_new (pos : list arg) (kw : list (text * arg)) : res (arg * list arg * arg) :=
  let! vs := call_args async_sig pos kw in
  match vs with
  | [portstr; baudrate; protocol; fast; timeout; check_voltage; start_low_power; delay_cmds] =>
      let! o := obd_new [portstr; baudrate; protocol; fast; timeout; check_voltage; start_low_power] [] in
      Ok (o, delay_cmds)
  | _ => Raise TypeError
  end.
(* the truth value of an argument (of the kinds that are passed here) *)
Definition truth (v : arg) : bool :=
  match v with
  | PNone => false | PText t => nonempty t | PBytes b => nonempty b | PInt z => negb (z =? 0) | PBool b => b | PSeconds ms => negb (ms =? 0) | _ => true
  end.
(* the model's record of the constructor's arguments, if they are of the documented kinds *)
Definition config_of (o : arg * list arg) : option (option text * config) :=
  match snd o with
  | [p; b; pr; PSeconds t; cv; lp] =>
      match (match p with PNone => Some None | PText t => Some (Some t) | _ => None end),
            (match b with PNone => Some None | PInt z => Some (Some z) | _ => None end),
            (match pr with PNone => Some None | PText t => Some (Some t) | _ => None end) with
      | Some p, Some b, Some pr => Some (p, mkConfig b pr (truth (fst o)) t (truth cv) (truth lp))
      | _, _, _ => None
      end
  | _ => None
  end.
(* OBDCommand(...): the attributes, if they are of the documented kinds *)
Definition command_new (pos : list arg) (kw : list (text * arg)) : res (option command) :=
  let! vs := call_args command_sig pos kw in
  match vs with
  | [PText n; PText ds; PBytes cm; PInt b; PDecoder d; PInt e; fast; PBytes h] => Ok (Some (mkCommand n ds cm b d e (truth fast) h))
  | _ => Ok None
  end.
