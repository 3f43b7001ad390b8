(* Model of obd/OBDCommand.py and of OBDResponse in obd/OBDResponse.py. No proofs in this file. *)
From Coq Require Import ZArith List Bool.
From Verif Require Import Py Utils Protocol Decoders.
Import ListNotations.
Open Scope Z_scope.

(* OBDCommand.py:42-59 *)
Record command := mkCommand {
  c_name : text; c_desc : text; c_command : bytes; c_bytes : Z; c_decode : decoder;
  c_ecu : Z; c_fast : bool; c_header : bytes }.

(* OBDCommand.py:71-76  mode. Simplification: a request that is not valid UTF-8 (.decode() raises) counts as non-hex. *)
Definition c_mode (c : command) : option Z :=
  if (2 <=? zlen (c_command c)) && isHex (c_command c) then
    match int16 (upto 2 (c_command c)) with Ok v => Some v | Raise _ => None end
  else None.
(* OBDCommand.py:78-83  pid *)
Definition c_pid (c : command) : option Z :=
  if (2 <? zlen (c_command c)) && isHex (c_command c) then
    match int16 (from 2 (c_command c)) with Ok v => Some v | Raise _ => None end
  else None.

(* OBDCommand.py:149-153  __eq__ *)
Definition cmd_eqb (a b : command) : bool :=
  text_eqb (c_command a) (c_command b) && text_eqb (c_header a) (c_header b).
(* OBDCommand.py:145-147  __hash__ is the hash of these bytes *)
Definition cmd_hash_key (c : command) : bytes := c_header c ++ c_command c.

(* OBDResponse.py:48-55  OBDResponse (without the time stamp) *)
Record response := mkResponse { r_command : option command; r_messages : list message; r_value : value }.
Definition empty_response := mkResponse None [] VNone.
(* OBDResponse.py:68-69  is_null. value == None is only true for None. *)
Definition is_none (v : value) : bool := match v with VNone => true | _ => false end.
Definition is_null (r : response) : bool := negb (nonempty (r_messages r)) || is_none (r_value r).

(* OBDCommand.py:104-121  __constrain_message_data *)
Definition constrain (n : Z) (m : message) : message :=
  let len := zlen (m_data m) in
  if 0 <? n then
    if n <? len then mkMessage (m_frames m) (m_ecu m) (upto (Z.to_nat n) (m_data m))
    else if len <? n then mkMessage (m_frames m) (m_ecu m) (m_data m ++ repeat 0 (Z.to_nat (n - len)))
    else m
  else m.

(* OBDCommand.py:85-102  __call__ *)
Definition cmd_call (c : command) (messages : list message) : res response :=
  let messages := filter (fun m => 0 <? Z.land (c_ecu c) (m_ecu m)) messages in
  let messages := map (constrain (c_bytes c)) messages in
  if nonempty messages then
    let! v := run_decoder (c_decode c) messages in
    Ok (mkResponse (Some c) messages v)
  else Ok (mkResponse (Some c) [] VNone).
