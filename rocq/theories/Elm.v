(* Model of obd/elm327.py. No proofs in this file. *)
From Coq Require Import ZArith List Bool.
From Verif Require Import Py Num Utils Protocol World.
Import ListNotations.
Open Scope Z_scope.

(* a serial.Serial object: name, baud rate, timeout (in milliseconds) *)
Record port := mkPort { pt_name : text; pt_baud : Z; pt_timeout : Z }.
(* elm327.py:119-123  the attributes of an ELM327 object *)
Record elm := mkElm {
  e_status : status; e_port : option port; e_protocol : option protocol; e_low_power : bool; e_timeout : Z }.
Definition ME (A : Type) : Type := M (elm * world) A.

Definition set_status (s : status) : ME unit :=
  fun '(e, w) => (Ok tt, (mkElm s (e_port e) (e_protocol e) (e_low_power e) (e_timeout e), w)).
Definition set_protocol_obj (p : option protocol) : ME unit :=
  fun '(e, w) => (Ok tt, (mkElm (e_status e) (e_port e) p (e_low_power e) (e_timeout e), w)).
Definition set_low_power (b : bool) : ME unit :=
  fun '(e, w) => (Ok tt, (mkElm (e_status e) (e_port e) (e_protocol e) b (e_timeout e), w)).
Definition set_port (p : option port) : ME unit :=
  fun '(e, w) => (Ok tt, (mkElm (e_status e) p (e_protocol e) (e_low_power e) (e_timeout e), w)).
Definition elm_of {A} (f : elm -> A) : ME A := gets (fun s => f (fst s)).
Definition emit_e (ev : event) : ME unit := fun '(e, w) => (Ok tt, (e, emit ev w)).

(* elm327.py:63-80  _SUPPORTED_PROTOCOLS *)
Definition supported_protocols : list (text * pclass) :=
  [ (str "1", SAE_J1850_PWM); (str "2", SAE_J1850_VPW); (str "3", ISO_9141_2); (str "4", ISO_14230_4_5baud);
    (str "5", ISO_14230_4_fast); (str "6", ISO_15765_4_11bit_500k); (str "7", ISO_15765_4_29bit_500k);
    (str "8", ISO_15765_4_11bit_250k); (str "9", ISO_15765_4_29bit_250k); (str "A", SAE_J1939) ].
(* elm327.py:83-94  _TRY_PROTOCOL_ORDER *)
Definition try_protocol_order : list text :=
  [str "6"; str "8"; str "1"; str "7"; str "9"; str "2"; str "3"; str "4"; str "5"; str "A"].
(* elm327.py:106  _TRY_BAUDS *)
Definition try_bauds : list Z := [38400; 9600; 230400; 115200; 57600; 19200].

(* elm327.py:510-512, 537-539  an I/O error: status, port.close(), port = None.
   Simplification: port.close() itself is taken not to raise. *)
Definition io_failure : ME unit :=
  do! set_status NOT_CONNECTED;
  do! emit_e EvClose;
  set_port None.

(* elm327.py:497-516  __write *)
Definition elm_write (cmd : bytes) : ME unit :=
  fun '(e, w) =>
    match e_port e with
    | Some _ =>
        let '(ok, w) := port_write true (cmd ++ [13]) w in
        if ok then (Ok tt, (e, w)) else io_failure (e, w)
    | None => (Ok tt, (e, w))
    end.

(* elm327.py:530-552  the read loop: the buffer (None after an exception), the remaining reads, and the reads made.
   It ends at an exception, at an empty read (timeout) or as soon as the end marker is in the buffer. *)
Fixpoint read_loop (marker buffer : bytes) (reads : list (option bytes))
  : option bytes * list (option bytes) * list event :=
  match reads with
  | [] => (Some buffer, [], [EvRead (Some [])])
  | None :: rest => (None, rest, [EvRead None])
  | Some [] :: rest => (Some buffer, rest, [EvRead (Some [])])
  | Some data :: rest =>
      let buffer := buffer ++ data in
      if contains marker buffer then (Some buffer, rest, [EvRead (Some data)])
      else
        let '(r, rest, evs) := read_loop marker buffer rest in
        (r, rest, EvRead (Some data) :: evs)
  end.

(* elm327.py:557-568  bytes to lines: null characters and a trailing prompt removed, decoded, split at CR and LF,
   empty pieces dropped, white space stripped *)
Definition clean (buffer : bytes) : list text :=
  let buffer := remove_char 0 buffer in
  let buffer := if endswith1 62 buffer then removelast buffer else buffer in
  let string := utf8_ignore buffer in
  map (strip_by uspace) (filter nonempty (split_crlf string)).

Definition ELM_PROMPT : bytes := str ">".
Definition ELM_LP_ACTIVE : bytes := str "OK".

(* elm327.py:518-570  __read *)
Definition elm_read (marker : bytes) : ME (list text) :=
  fun '(e, w) =>
    match e_port e with
    | None => (Ok [], (e, w))
    | Some _ =>
        let '(r, rest, evs) := read_loop marker [] (w_reads w) in
        let w := mkWorld (w_opens w) (w_writes w) rest (w_confs w) (w_trace w ++ evs) in
        match r with
        | Some buffer => (Ok (clean buffer), (e, w))
        | None => (do! io_failure; ret []) (e, w)
        end
    end.

(* elm327.py:482-494  how often the loop "while delayed < 1.0 and len(r) <= 0: delayed += 0.1" can run *)
Fixpoint wait_steps (fuel : nat) (delayed : spec_float) : nat :=
  match fuel with
  | O => O
  | S f => if flt delayed (float_of_Z 1) then S (wait_steps f (fadd delayed (float_of_ratio false 1 10))) else O
  end.
Definition retries (delay : bool) : nat :=
  wait_steps 100 (if delay then fadd (float_of_Z 0) (float_of_Z 1) else float_of_Z 0).

(* elm327.py:489-495 *)
Fixpoint read_again (n : nat) (marker : bytes) (r : list text) : ME (list text) :=
  match n with
  | O => ret r
  | S k => if nonempty r then ret r else (do r <- elm_read marker; read_again k marker r)
  end.

(* elm327.py:471-495  __send; delay is None (false) or 1 second (true) *)
Definition elm_send_gen (cmd : bytes) (delay : bool) (marker : bytes) : ME (list text) :=
  do! elm_write cmd;
  do r <- elm_read marker;
  read_again (retries delay) marker r.
Definition elm_send (cmd : bytes) (delay : bool) : ME (list text) := elm_send_gen cmd delay ELM_PROMPT.

(* elm327.py:347-351  __has_message *)
Definition has_message (lines : list text) (s : text) : bool := existsb (contains s) lines.
(* elm327.py:337-345  __isok *)
Definition isok (lines : list text) (expect_echo : bool) : bool :=
  if negb (nonempty lines) then false
  else if expect_echo then has_message lines (str "OK")
  else match lines with [l] => text_eqb l (str "OK") | _ => false end.

(* elm327.py:432-445  close. If writing ATZ fails, __write has already set __port to None and
   self.__port.close() is an AttributeError. *)
Definition elm_close : ME unit :=
  do! set_status NOT_CONNECTED;
  do! set_protocol_obj None;
  do p <- elm_of e_port;
  match p with
  | None => ret tt
  | Some _ =>
      do! elm_write (str "ATZ");
      do p <- elm_of e_port;
      match p with
      | None => raise AttributeError
      | Some _ => do! emit_e EvClose; set_port None
      end
  end.
(* elm327.py:353-356  __error *)
Definition elm_error : ME unit := elm_close.

(* elm327.py:358-362  port_name *)
Definition elm_port_name (e : elm) : text := match e_port e with Some p => pt_name p | None => [] end.
(* elm327.py:367-374  ecus, protocol_name, protocol_id *)
Definition elm_protocol_name (e : elm) : res text :=
  match e_protocol e with Some p => Ok (pc_name (p_class p)) | None => Raise AttributeError end.
Definition elm_protocol_id (e : elm) : res text :=
  match e_protocol e with Some p => Ok (pc_id (p_class p)) | None => Raise AttributeError end.

(* port.timeout = t *)
Definition set_timeout (t : Z) : ME unit :=
  fun '(e, w) =>
    match e_port e with
    | Some p => (Ok tt, (mkElm (e_status e) (Some (mkPort (pt_name p) (pt_baud p) t)) (e_protocol e) (e_low_power e) (e_timeout e),
                         emit (EvTimeout t) w))
    | None => (Raise AttributeError, (e, w))
    end.
(* port.baudrate = b *)
Definition set_baud (b : Z) : ME unit :=
  fun '(e, w) =>
    match e_port e with
    | Some p =>
        let '(ok, w) := port_baud b w in
        if ok then (Ok tt, (mkElm (e_status e) (Some (mkPort (pt_name p) b (pt_timeout p))) (e_protocol e) (e_low_power e) (e_timeout e), w))
        else (Raise SerialError, (e, w))
    | None => (Raise AttributeError, (e, w))
    end.
(* elm327.py:311-324  flush, write, flush, read(1024) without any handler *)
Definition baud_probe : ME bytes :=
  fun '(e, w) =>
    let '(ok, w) := port_write true [127; 127; 13] w in
    if ok then
      let '(r, w) := port_read w in
      match r with Some bs => (Ok bs, (e, w)) | None => (Raise SerialError, (e, w)) end
    else (Raise SerialError, (e, w)).
(* elm327.py:309-331 *)
Fixpoint try_each_baud (old_timeout : Z) (bauds : list Z) : ME bool :=
  match bauds with
  | [] => do! set_timeout old_timeout; ret false
  | b :: t =>
      do! set_baud b;
      do response <- baud_probe;
      if endswith1 62 response then (do! set_timeout old_timeout; ret true)
      else try_each_baud old_timeout t
  end.
(* elm327.py:299-335  auto_baudrate *)
Definition auto_baudrate : ME bool :=
  do p <- elm_of e_port;
  match p with
  | None => raise AttributeError
  | Some p =>
      do t <- elm_of e_timeout;
      do! set_timeout t;
      try_each_baud (pt_timeout p) try_bauds
  end.
(* elm327.py:287-297  set_baudrate *)
Definition set_baudrate (baud : option Z) : ME bool :=
  match baud with
  | None =>
      do name <- elm_of elm_port_name;
      if startswith (str "/dev/pts") name then ret true else auto_baudrate
  | Some b => do! set_baud b; ret true
  end.

(* elm327.py:230, 267, 280  self.__protocol = _SUPPORTED_PROTOCOLS[p](r0100) *)
Definition instantiate (id : text) (r0100 : list text) : ME unit :=
  match dict_get text_eqb supported_protocols id with
  | None => raise KeyError
  | Some c => do p <- of_res (new_protocol c r0100); set_protocol_obj (Some p)
  end.
Definition UNABLE : text := str "UNABLE TO CONNECT".

(* elm327.py:224-233  manual_protocol *)
Definition manual_protocol (id : text) : ME bool :=
  do! elm_send (str "ATTP" ++ id) false;
  do r0100 <- elm_send (str "0100") false;
  if negb (has_message r0100 UNABLE) then (do! instantiate id r0100; ret true) else ret false.

(* elm327.py:275-281 *)
Fixpoint try_protocols (ids : list text) : ME bool :=
  match ids with
  | [] => ret false
  | p :: t =>
      do! elm_send (str "ATTP" ++ p) false;
      do r0100 <- elm_send (str "0100") false;
      if negb (has_message r0100 UNABLE) then (do! instantiate p r0100; ret true) else try_protocols t
  end.
(* elm327.py:262  suppress any "automatic" prefix *)
Definition strip_auto (p : text) : text :=
  if (1 <? zlen p) && startswith (str "A") p then from 1 p else p.
(* elm327.py:235-285  auto_protocol *)
Definition auto_protocol : ME bool :=
  do! elm_send (str "ATSP0") true;
  do r0100 <- elm_send (str "0100") true;
  if has_message r0100 UNABLE then ret false
  else
    do r <- elm_send (str "ATDPN") false;
    match r with
    | [p] =>
        let p := strip_auto p in
        if dict_mem text_eqb supported_protocols p then (do! instantiate p r0100; ret true)
        else try_protocols try_protocol_order
    | _ => ret false
    end.
(* elm327.py:211-222  set_protocol *)
Definition set_protocol (p : option text) : ME bool :=
  match p with
  | Some id => if negb (dict_mem text_eqb supported_protocols id) then ret false else manual_protocol id
  | None => auto_protocol
  end.

(* elm327.py:376-404  low_power; None = not connected *)
Definition elm_low_power : ME (option (list text)) :=
  do s <- elm_of e_status;
  if status_eqb s NOT_CONNECTED then ret None
  else
    do lines <- elm_send_gen (str "ATLP") true ELM_LP_ACTIVE;
    do! (if existsb (text_eqb (str "OK")) lines then set_low_power true else ret tt);
    ret (Some lines).
(* elm327.py:406-430  normal_power *)
Definition elm_normal_power : ME (option (list text)) :=
  do s <- elm_of e_status;
  if status_eqb s NOT_CONNECTED then ret None
  else
    do lines <- elm_send (str " ") false;
    do! set_low_power false;
    ret (Some lines).
(* elm327.py:447-469  send_and_parse; None = not connected. Calling a protocol that is None is a TypeError. *)
Definition send_and_parse (cmd : bytes) : ME (option (list message)) :=
  do s <- elm_of e_status;
  if status_eqb s NOT_CONNECTED then ret None
  else
    do lp <- elm_of e_low_power;
    do! (if lp then (do! elm_normal_power; ret tt) else ret tt);
    do lines <- elm_send cmd false;
    do p <- elm_of e_protocol;
    match p with
    | None => raise TypeError
    | Some p => do ms <- of_res (call p lines); ret (Some ms)
    end.

(* elm327.py:186  float(r[0].lower().replace('v', '')) *)
Definition volts (line : text) : option spec_float := py_float (remove_char 118 (lower line)).

(* elm327.py:176-209  from "by now, we've successfuly communicated with the ELM" on. The final log line reads
   self.__port.baudrate. *)
Definition elm_init_car (protocol_ : option text) : ME unit :=
  do ok <- set_protocol protocol_;
  if (ok : bool) then
    do! set_status CAR_CONNECTED;
    do p <- elm_of e_port;
    match p with Some _ => ret tt | None => raise AttributeError end
  else ret tt.
Definition elm_init_voltage (check_voltage : bool) (protocol_ : option text) : ME unit :=
  do! set_status ELM_CONNECTED;
  if check_voltage then
    do r <- elm_send (str "AT RV") false;
    match r with
    | [l] =>
        if negb (nonempty l) then elm_error
        else
          match volts l with
          | None => elm_error
          | Some v =>
              if flt v (float_of_Z 6) then ret tt
              else (do! set_status OBD_CONNECTED; elm_init_car protocol_)
          end
    | _ => elm_error
    end
  else elm_init_car protocol_.
(* elm327.py:139-174  from the open port to ATL0 *)
Definition elm_init_opened (baud : option Z) (protocol_ : option text) (check_voltage start_low_power : bool) : ME unit :=
  do! (if start_low_power then elm_write (str " ") else ret tt);
  do ok <- set_baudrate baud;
  if negb ok then elm_error
  else
    do! elm_send (str "ATZ") true;
    do r <- elm_send (str "ATE0") false;
    if negb (isok r true) then elm_error
    else
      do r <- elm_send (str "ATH1") false;
      if negb (isok r false) then elm_error
      else
        do r <- elm_send (str "ATL0") false;
        if negb (isok r false) then elm_error
        else elm_init_voltage check_voltage protocol_.

(* UnknownProtocol([]), elm327.py:121: parses nothing *)
Definition unknown_protocol : protocol := mkProtocol UnknownProtocol [].

(* elm327.py:108-209  ELM327(...): the object, or the exception that leaves the constructor *)
Definition new_elm (portname : text) (baud : option Z) (protocol_ : option text) (timeout : Z)
           (check_voltage start_low_power : bool) (w : world) : res elm * world :=
  let e0 := mkElm NOT_CONNECTED None (Some unknown_protocol) false timeout in
  let '(ok, w) := port_open portname w in
  if (ok : bool) then
    let e1 := mkElm NOT_CONNECTED (Some (mkPort portname 9600 10000)) (Some unknown_protocol) false timeout in
    match elm_init_opened baud protocol_ check_voltage start_low_power (e1, w) with
    | (Ok _, (e, w)) => (Ok e, w)
    | (Raise x, (_, w)) => (Raise x, w)
    end
  else
    match elm_error (e0, w) with
    | (Ok _, (e, w)) => (Ok e, w)
    | (Raise x, (_, w)) => (Raise x, w)
    end.
