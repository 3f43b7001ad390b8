(* Model of the printed forms of responses: __str__, __len__ and unit in obd/OBDResponse.py. No proofs in this file.
   str() of a pint quantity is pint's: it is the parameter showq (magnitude and unit) everywhere below, as is str() of a pint unit. *)
From Coq Require Import ZArith List Bool.
From Verif Require Import Py Num Utils Protocol Codes UasTable Decoders Command.
Import ListNotations.
Open Scope Z_scope.

(* '%s' % x, for a text or None *)
Definition show_text (o : option text) : text := match o with Some t => t | None => str "None" end.
(* str() of a bool *)
Definition show_bool (b : bool) : text := if b then str "True" else str "False".
(* str(self.value) in MonitorTest.__str__ *)
Definition show_tval (showq : num -> text -> text) (o : option tval) : text :=
  match o with Some (TQty n u) => showq n u | Some (TBool b) => show_bool b | None => str "None" end.

(* OBDResponse.py:102-105  StatusTest.__str__ *)
Definition str_status_test (t : status_test) : text :=
  let a := if st_available t then str "Available" else str "Unavailable" in
  let c := if st_complete t then str "Complete" else str "Incomplete" in
  str "Test " ++ show_text (st_name t) ++ str ": " ++ a ++ str ", " ++ c.

(* OBDResponse.py:171-174  MonitorTest.__str__ *)
Definition str_mtest (showq : num -> text -> text) (t : mtest) : text :=
  show_text (t_desc t) ++ str " : " ++ show_tval showq (t_value t) ++ str " [" ++ (if test_passed t then str "PASSED" else str "FAILED") ++ str "]".

(* OBDResponse.py:137-138  Monitor.__len__ *)
Definition len_monitor (m : monitor_value) : Z := Z.of_nat (length (monitor_tests m)).

(* OBDResponse.py:131-135  Monitor.__str__ *)
Definition str_monitor (showq : num -> text -> text) (m : monitor_value) : text :=
  if 0 <? Z.of_nat (length (monitor_tests m)) then join [10] (map (str_mtest showq) (monitor_tests m))
  else str "No tests to report".

(* str(type(value)) for the Python types of decoded values; Python 3. `other` for the values of users' own decoders. *)
Definition str_type (other : Z -> text) (v : value) : text :=
  match v with
  | VNone => str "<class 'NoneType'>"
  | VBytes _ => str "<class 'bytearray'>"
  | VText _ => str "<class 'str'>"
  | VBool _ => str "<class 'bool'>"
  | VQty _ _ => str "<class 'pint.Quantity'>"
  | VBits _ => str "<class 'obd.utils.BitArray'>"
  | VTuple _ | VPair _ _ | VDtc _ _ => str "<class 'tuple'>"
  | VDtcs _ => str "<class 'list'>"
  | VStatus _ => str "<class 'obd.OBDResponse.Status'>"
  | VMonitor _ => str "<class 'obd.OBDResponse.Monitor'>"
  | VCustom z => other z
  end.
(* OBDResponse.py:57-66  OBDResponse.unit; showu is str() of a pint unit *)
Definition response_unit (showu : text -> text) (other : Z -> text) (r : response) : option text :=
  match r_value r with
  | VQty _ u => Some (showu u)
  | VNone => None
  | v => Some (str_type other v)
  end.
