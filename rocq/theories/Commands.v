(* Model of the rest of obd/commands.py: mode 2 and class Commands. No proofs in this file. *)
From Coq Require Import ZArith List Bool.
From Verif Require Import Py Utils Protocol Decoders Command CommandTable.
Import ListNotations.
Open Scope Z_scope.

(* commands.py:155-164  mode 2 is cloned from mode 1 *)
Definition to_mode2 (c : command) : command :=
  mkCommand (str "DTC_" ++ c_name c) (str "DTC " ++ c_desc c) (str "02" ++ from 2 (c_command c)) (c_bytes c)
            (if is_pid_decoder (c_decode c) then D_drop else c_decode c) (c_ecu c) (c_fast c) (c_header c).
Definition mode2 : list (option command) := map (option_map to_mode2) mode1.

(* commands.py:317-328  Commands.modes *)
Definition modes : list (list (option command)) :=
  [ []; mode1; mode2; mode3; mode4; []; mode6; mode7; []; mode9 ].

Definition somes {A} (l : list (option A)) : list A :=
  flat_map (fun o => match o with Some x => [x] | None => [] end) l.

(* every command object there is, in the order in which commands.py:330-337 enters them by name *)
Definition all_commands : list command := somes (List.concat modes) ++ somes misc.
(* commands.py:330-337  the part of __dict__ that maps names to commands ("modes" itself is also an attribute) *)
Definition by_name : list (text * command) :=
  fold_left (fun d c => dict_set text_eqb d (c_name c) c) all_commands [].

(* commands.py:339-358  commands[mode], commands[name] *)
Definition get_mode (mode : Z) : res (list (option command)) :=
  if 0 <=? mode then get modes (Z.to_nat mode)
  else if 0 <=? zlen modes + mode then get modes (Z.to_nat (zlen modes + mode)) else Raise IndexError.
Definition get_name (name : text) : res command :=
  match dict_get text_eqb by_name name with Some c => Ok c | None => Raise KeyError end.
(* commands.py:360-362  __len__ *)
Definition commands_len : Z := fold_left (fun n m => n + zlen m) modes 0.

Definition named (name : text) : list command :=
  match dict_get text_eqb by_name name with Some c => [c] | None => [] end.
(* commands.py:368-382  base_commands *)
Definition base_commands : list command :=
  flat_map named [str "PIDS_A"; str "PIDS_9A"; str "MIDS_A"; str "GET_DTC"; str "CLEAR_DTC"; str "GET_CURRENT_DTC";
                  str "ELM_VERSION"; str "ELM_VOLTAGE"].
(* commands.py:384-389  pid_getters *)
Definition pid_getters : list command :=
  flat_map (fun m => filter (fun c => is_pid_decoder (c_decode c)) (somes m)) modes.
(* commands.py:391-393  has_command ("modes", a list, never equals a command) *)
Definition has_command (c : command) : bool := existsb (fun c' => cmd_eqb c' c) (map snd by_name).
(* str.isupper(), ASCII: some cased character and no lower-case one *)
Definition isupper (s : text) : bool :=
  existsb (fun c => (65 <=? c) && (c <=? 90)) s && negb (existsb (fun c => (97 <=? c) && (c <=? 122)) s).
(* commands.py:395-398  has_name *)
Definition has_name (s : text) : bool :=
  isupper s && (dict_mem text_eqb by_name s || text_eqb s (str "modes")).
(* commands.py:400-410  has_pid *)
Definition has_pid (mode pid : Z) : bool :=
  if (mode <? 0) || (pid <? 0) then false
  else if zlen modes <=? mode then false
  else
    let m := nth (Z.to_nat mode) modes [] in
    if zlen m <=? pid then false
    else match nth (Z.to_nat pid) m None with Some _ => true | None => false end.
(* commands[mode][pid], where has_pid holds *)
Definition get_pid (mode pid : Z) : option command := nth (Z.to_nat pid) (nth (Z.to_nat mode) modes []) None.
