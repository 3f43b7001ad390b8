(* Validation of the model: the expectations written in the project's own unit tests (/repo/tests), evaluated on
   the model. These are examples on literals, not theorems about the code: they show that the model computes what
   the test-suite says the program computes. The numeric tables are in ConformTable.v (generated). *)
From Coq Require Import ZArith List Bool.
From Verif Require Import Py Num Utils Protocol UasTable Codes Decoders Command CommandTable Commands ConformTable.
Import ListNotations.
Open Scope Z_scope.

(* ---- equality of quantities as the tests compare them ---- *)
Definition same_num (a b : num) : bool :=
  match a, b with PyInt x, PyInt y => x =? y | _, _ => SFeqb (to_float a) (to_float b) end.
(* |a - b| < 0.025 *)
Definition near_num (a b : num) : bool :=
  let d := fsub (to_float a) (to_float b) in
  flt (SFabs d) (float_of_ratio false 25 1000).
Definition agrees (exact : bool) (got want : num) : bool :=
  if exact then same_num got want else near_num got want.
Definition hex (s : text) : bytes := match unhexlify s with Ok b => b | Raise _ => [] end.

(* ---- tests/test_uas.py ---- *)
Definition uas_ok (t : Z * Z * text * bool * lit * text) : bool :=
  let '(_, id, h, exact, v, u) := t in
  match dict_get Z.eqb UAS_IDS id with
  | Some x => match uas_call x (hex h) with
              | Ok (TQty n u') => agrees exact n (lit_num v) && text_eqb u' u
              | _ => false
              end
  | None => false
  end.
Definition uas_bool_ok (t : Z * Z * text * bool) : bool :=
  let '(_, id, h, b) := t in
  match dict_get Z.eqb UAS_IDS id with
  | Some x => match uas_call x (hex h) with Ok (TBool b') => eqb b b' | _ => false end
  | None => false
  end.
(* tests/test_uas.py:25-705, all 357 assertions *)
Example tests_uas : forallb uas_ok uas_tests = true /\ length uas_tests = 354%nat.
Proof. split; vm_compute; reflexivity. Qed.
Example tests_uas_bool : forallb uas_bool_ok uas_bool_tests = true /\ length uas_bool_tests = 3%nat.
Proof. split; vm_compute; reflexivity. Qed.

(* ---- tests/test_decoders.py ---- *)
(* :12-16 *)
Definition m (h : text) : list message := [mkMessage [] ECU_UNKNOWN (hex h)].
Definition decoder_ok (t : decoder * text * bool * lit * text) : bool :=
  let '(d, h, exact, v, u) := t in
  match run_decoder d (m h) with
  | Ok (VQty n u') => agrees exact n (lit_num v) && text_eqb u' u
  | _ => false
  end.
Definition run (d : decoder) (h : text) : res value := run_decoder d (m h).

(* :52-190, every assertion about a quantity *)
Example tests_decoders_quantities : forallb decoder_ok decoder_tests = true /\ length decoder_tests = 39%nat.
Proof. split; vm_compute; reflexivity. Qed.

(* :31-48 *)
Example test_noop_drop_raw_pid :
  run D_noop (str "00010203") = Ok (VBytes [0; 1; 2; 3])
  /\ run D_drop (str "deadbeef") = Ok VNone
  /\ dec_raw_string [mkMessage [] ECU_UNKNOWN []] = Ok (VText [])
  /\ dec_raw_string [mkMessage [new_frame (str "NO DATA")] ECU_UNKNOWN []] = Ok (VText (str "NO DATA"))
  /\ dec_raw_string [mkMessage [new_frame (str "A"); new_frame (str "B")] ECU_UNKNOWN []] = Ok (VText (str "A" ++ 10 :: str "B"))
  /\ dec_raw_string [mkMessage [new_frame (str "A")] ECU_UNKNOWN []; mkMessage [new_frame (str "B")] ECU_UNKNOWN []]
     = Ok (VText (str "A" ++ 10 :: str "B"))
  /\ run D_pid (str "410000000000") = Ok (VBits (repeat false 32))
  /\ run D_pid (str "4100F00AA00F") = Ok (VBits (map (fun c => c =? 49) (str "11110000000010101010000000001111")))
  /\ run D_pid (str "410011") = Ok (VBits (map (fun c => c =? 49) (str "00010001"))).
Proof. vm_compute. repeat split. Qed.

(* :140-186 *)
Example test_enumerations :
  let openloop := str "Open loop due to system failure" in
  run D_fuel_status (str "41000100") = Ok (VPair (str "Open loop due to insufficient engine temperature") [])
  /\ run D_fuel_status (str "41000800") = Ok (VPair openloop [])
  /\ run D_fuel_status (str "41000808") = Ok (VPair openloop openloop)
  /\ run D_fuel_status (str "41000008") = Ok (VPair [] openloop)
  /\ run D_fuel_status (str "41000000") = Ok VNone
  /\ run D_fuel_status (str "41000300") = Ok VNone
  /\ run D_fuel_status (str "41000303") = Ok VNone
  /\ run D_air_status (str "410001") = Ok (VText (str "Upstream"))
  /\ run D_air_status (str "410008") = Ok (VText (str "Pump commanded on for diagnostics"))
  /\ run D_air_status (str "410003") = Ok VNone
  /\ run D_fuel_type (str "410000") = Ok (VText (str "Not available"))
  /\ run D_fuel_type (str "410017") = Ok (VText (str "Bifuel running diesel"))
  /\ run D_fuel_type (str "410018") = Ok VNone
  /\ run D_obd_compliance (str "410000") = Ok (VText (str "Undefined"))
  /\ run D_obd_compliance (str "410021") = Ok (VText (str "Heavy Duty Euro OBD Stage VI (HD EOBD-IV)"))
  /\ run D_obd_compliance (str "410022") = Ok VNone.
Proof. vm_compute. repeat split. Qed.

Example test_o2_aux :
  let f := false in let t := true in
  run D_o2_sensors (str "410000") = Ok (VTuple [[]; [f;f;f;f]; [f;f;f;f]])
  /\ run D_o2_sensors (str "410001") = Ok (VTuple [[]; [f;f;f;f]; [f;f;f;t]])
  /\ run D_o2_sensors (str "41000F") = Ok (VTuple [[]; [f;f;f;f]; [t;t;t;t]])
  /\ run D_o2_sensors (str "4100F0") = Ok (VTuple [[]; [t;t;t;t]; [f;f;f;f]])
  /\ run D_o2_sensors_alt (str "410000") = Ok (VTuple [[]; [f;f]; [f;f]; [f;f]; [f;f]])
  /\ run D_o2_sensors_alt (str "410001") = Ok (VTuple [[]; [f;f]; [f;f]; [f;f]; [f;t]])
  /\ run D_o2_sensors_alt (str "41000F") = Ok (VTuple [[]; [f;f]; [f;f]; [t;t]; [t;t]])
  /\ run D_o2_sensors_alt (str "4100F0") = Ok (VTuple [[]; [t;t]; [t;t]; [f;f]; [f;f]])
  /\ run D_aux_input_status (str "410000") = Ok (VBool false)
  /\ run D_aux_input_status (str "410080") = Ok (VBool true).
Proof. vm_compute. repeat split. Qed.

(* :193-198 *)
Definition volts (raw : text) : res value := dec_elm_voltage [mkMessage [new_frame raw] ECU_UNKNOWN []].
Definition volts_ok (raw : text) (v : lit) : bool :=
  match volts raw with Ok (VQty n u) => same_num n (lit_num v) && text_eqb u (str "volt") | _ => false end.
Example test_elm_voltage :
  volts_ok (str "12.875") (LDec 12875 1000) && volts_ok (str "12") (LInt 12) && volts_ok (str "12.3V") (LDec 123 10) = true
  /\ volts (str "12ABCD") = Ok VNone.
Proof. vm_compute. repeat split. Qed.

(* :201-259 *)
Definition status_of (h : text) : option status_value :=
  match run D_status h with Ok (VStatus s) => Some s | _ => None end.
Definition test_is (s : status_value) (available complete : bool) (name : text) : bool :=
  match dict_get otext_eqb (st_tests s) (Some name) with
  | Some t => eqb (st_available t) available && eqb (st_complete t) complete
  | None => false
  end.
Definition has (names : list (option text)) (n : text) : bool := existsb (otext_eqb (Some n)) names.
Definition present (l : list (option text)) : list text := flat_map (fun o => match o with Some x => [x] | None => [] end) l.
Definition T s := str s.
Arguments T s%string_scope.
Example test_status_spark :
  match status_of (str "41008307FF00") with
  | Some s => st_MIL s && (st_DTC_count s =? 3) && text_eqb (st_ignition_type s) (str "spark")
      && forallb (test_is s true true) (present BASE_TESTS)
      && forallb (fun n => has SPARK_TESTS n || test_is s false false n) (present COMPRESSION_TESTS)
      && forallb (test_is s true true) (present SPARK_TESTS)
  | None => false
  end = true.
Proof. vm_compute. reflexivity. Qed.
Example test_status_compression :
  match status_of (str "410000790303") with
  | Some s => negb (st_MIL s) && (st_DTC_count s =? 0) && text_eqb (st_ignition_type s) (str "compression")
      && test_is s true false (T "MISFIRE_MONITORING")
      && test_is s false false (T "FUEL_SYSTEM_MONITORING")
      && test_is s false false (T "COMPONENT_MONITORING")
      && forallb (fun n => has COMPRESSION_TESTS n || test_is s false false n) (present SPARK_TESTS)
      && test_is s true false (T "NMHC_CATALYST_MONITORING")
      && test_is s true false (T "NOX_SCR_AFTERTREATMENT_MONITORING")
      && test_is s false true (T "BOOST_PRESSURE_MONITORING")
      && test_is s false true (T "EXHAUST_GAS_SENSOR_MONITORING")
      && test_is s false true (T "PM_FILTER_MONITORING")
      && test_is s false true (T "EGR_VVT_SYSTEM_MONITORING")
  | None => false
  end = true.
Proof. vm_compute. reflexivity. Qed.

(* :262-305 *)
Example test_dtcs :
  let maf := (str "P0104", str "Mass or Volume Air Flow Circuit Intermittent") in
  run D_single_dtc (str "41000104") = Ok (VDtc (fst maf) (snd maf))
  /\ run D_single_dtc (str "41004123") = Ok (VDtc (str "C0123") [])
  /\ run D_single_dtc (str "410001") = Ok VNone
  /\ run D_single_dtc (str "4100010400") = Ok VNone
  /\ run D_dtc (str "41000104") = Ok (VDtcs [maf])
  /\ run D_dtc (str "4100010480034123") = Ok (VDtcs [maf; (str "B0003", []); (str "C0123", [])])
  /\ run D_dtc (str "41000104800341") = Ok (VDtcs [maf; (str "B0003", [])])
  /\ run D_dtc (str "4100000001040000") = Ok (VDtcs [maf])
  /\ run_decoder D_dtc (m (str "41000104") ++ m (str "41008003") ++ m (str "41000000")) = Ok (VDtcs [maf; (str "B0003", [])]).
Proof. vm_compute. repeat split. Qed.
Example test_mode9 :
  run D_count (str "0901") = Ok (qty (PyInt 0) "count")
  /\ run (D_encoded_string 17) (str "02015750305A5A5A39395A5453333932313234") = Ok (VBytes (str "WP0ZZZ99ZTS392124"))
  /\ run D_cvn (str "6021791bc8216e0b") = Ok (VText (str "791bc8216e")).
Proof. vm_compute. repeat split. Qed.

(* :307-372 *)
Definition mon (h : text) : option monitor_value := match run D_monitor h with Ok (VMonitor v) => Some v | _ => None end.
Definition tq (t : option tval) (v : Z) (u : text) : bool :=
  match t with Some (TQty n u') => near_num n (PyInt v) && text_eqb u' u | _ => false end.
Definition test_reads (v : monitor_value) (tid a b c : Z) (u : text) : bool :=
  let t := monitor_get_tid v tid in
  negb (test_is_null t) && tq (t_value t) a u && tq (t_min t) b u && tq (t_max t) c u.
Definition found_by_name (v : monitor_value) (tid : Z) (name : text) : bool :=
  let a := monitor_get_tid v tid in let b := monitor_get_name v name in
  oz_eqb (t_tid a) (t_tid b) && otext_eqb (t_name a) (t_name b) && otext_eqb (t_desc a) (t_desc b).
Example test_monitor_single :
  match mon (str "4101010A0BB00BB00BB0") with
  | Some v => (length (monitor_tests v) =? 1)%nat && test_reads v 1 365 365 365 (str "millivolt")
              && found_by_name v 1 (str "RTL_THRESHOLD_VOLTAGE")
  | None => false
  end = true.
Proof. vm_compute. reflexivity. Qed.
Example test_monitor_three :
  match mon (str "4101010A0BB00BB00BB00105100048000000640185240096004BFFFF") with
  | Some v => (length (monitor_tests v) =? 3)%nat && test_reads v 1 365 365 365 (str "millivolt")
              && test_reads v 5 72 0 100 (str "millisecond") && test_reads v 133 150 75 65535 (str "count")
              && found_by_name v 1 (str "RTL_THRESHOLD_VOLTAGE") && found_by_name v 5 (str "RTL_SWITCH_TIME")
  | None => false
  end = true.
Proof. vm_compute. reflexivity. Qed.
Example test_monitor_truncated :
  match mon (str "4101010A0BB00BB00BB0ABCDEF"), mon (str "4101010A0BB00BB00B") with
  | Some v, Some w => (length (monitor_tests v) =? 1)%nat && test_reads v 1 365 365 365 (str "millivolt")
              && (length (monitor_tests w) =? 0)%nat
              && forallb (fun e => test_is_null (monitor_get_tid w (fst e))) TEST_IDS
  | _, _ => false
  end = true.
Proof. vm_compute. reflexivity. Qed.

(* ---- tests/test_protocol.py ---- *)
(* :61-77; ecu_map[id] *)
Definition map_of (c : pclass) (lines : list text) (id : Z) : option Z :=
  match new_protocol c lines with Ok p => dict_get oz_eqb (p_map p) (Some id) | Raise _ => None end.
Example test_populate_ecu_map :
  map_of SAE_J1850_PWM [str "48 6B 10 41 00 BE 1F B8 11 AA"; str "48 6B 12 41 00 BE 1F B8 11 AA"] 16 = Some ECU_ENGINE
  /\ map_of SAE_J1850_PWM [str "48 6B 12 41 00 BE 1F B8 11 AA"] 18 = Some ECU_ENGINE
  /\ map_of SAE_J1850_PWM [str "48 6B 12 41 00 BE 1F B8 11 AA"; str "48 6B 14 41 00 00 00 B8 11 AA"] 18 = Some ECU_ENGINE
  /\ map_of SAE_J1850_PWM [] 16 = Some ECU_ENGINE.
Proof. vm_compute. repeat split. Qed.

(* ---- tests/test_protocol_can.py, tests/test_protocol_legacy.py ---- *)
Definition parse (c : pclass) (lines : list text) : res (list (nat * option Z * Z * bytes)) :=
  let! p := new_protocol c [] in
  let! ms := call p lines in
  Ok (map (fun x => (length (m_frames x), m_tx_id x, m_ecu x, m_data x)) ms).
Definition CAN_11 := [ISO_15765_4_11bit_500k; ISO_15765_4_11bit_250k].
Definition LEGACY := [SAE_J1850_PWM; SAE_J1850_VPW; ISO_9141_2; ISO_14230_4_5baud; ISO_14230_4_fast].
Fixpoint count_up (n : nat) (from_ : Z) : bytes := match n with O => [] | S k => from_ :: count_up k (from_ + 1) end.
(* every order of a list, and every list with one element missing, the last one kept (range(len - 1)) *)
Fixpoint inserts {A} (x : A) (l : list A) : list (list A) :=
  match l with [] => [[x]] | y :: r => (x :: l) :: map (cons y) (inserts x r) end.
Fixpoint orders {A} (l : list A) : list (list A) :=
  match l with [] => [[]] | x :: r => flat_map (inserts x) (orders r) end.
Definition drop_nth {A} (n : nat) (l : list A) : list A := firstn n l ++ skipn (S n) l.

Example test_can_single_frame : Forall (fun c =>
  parse c [str "7E8 06 41 00 00 01 02 03"] = Ok [(1%nat, Some 0, ECU_ENGINE, [65; 0; 0; 1; 2; 3])]
  /\ parse c [str "7E8 01 41"] = Ok [(1%nat, Some 0, ECU_ENGINE, [65])]
  /\ parse c [str "7E8 07 41 00 00 01 02 03 04"] = Ok [(1%nat, Some 0, ECU_ENGINE, [65; 0; 0; 1; 2; 3; 4])]
  /\ parse c [str "7E8 01"] = Ok []
  /\ parse c [str "7E8 08 41 00 00 01 02 03 04 05"] = Ok []
  /\ parse c [str "7E8 00"] = Ok []
  /\ parse c [str "7E8 08 41 00 00 01 02 03 04 0"] = Ok []) CAN_11.
Proof. repeat constructor. Qed.

Example test_can_straining : Forall (fun c =>
  let junk := (1%nat, None, ECU_UNKNOWN, []) in
  parse c [str "12.8 Volts"] = Ok [junk]
  /\ parse c [str "12.8 Volts"; str "NO DATA"] = Ok [junk; junk]
  /\ parse c [str "NO DATA"; str "7E8 06 41 00 00 01 02 03"] = Ok [(1%nat, Some 0, ECU_ENGINE, [65; 0; 0; 1; 2; 3]); junk]) CAN_11.
Proof. repeat constructor. Qed.

Example test_can_multi_ecu : Forall (fun c => exists e0 e2 e3,
  parse c [str "7E8 06 41 00 00 01 02 03"; str "7EB 06 41 00 00 01 02 03"; str "7EA 06 41 00 00 01 02 03"]
  = Ok [(1%nat, Some 0, e0, [65; 0; 0; 1; 2; 3]); (1%nat, Some 2, e2, [65; 0; 0; 1; 2; 3]); (1%nat, Some 3, e3, [65; 0; 0; 1; 2; 3])]) CAN_11.
Proof. repeat constructor; do 3 eexists; vm_compute; reflexivity. Qed.

Definition can_lines := [str "7E8 10 20 49 04 00 01 02 03"; str "7E8 21 04 05 06 07 08 09 0A";
                         str "7E8 22 0B 0C 0D 0E 0F 10 11"; str "7E8 23 12 13 14 15 16 17 18"].
Definition parses_as (c : pclass) (lines : list text) (want : list (nat * Z * bytes)) : bool :=
  match parse c lines with
  | Ok l => (length l =? length want)%nat &&
      forallb (fun p => let '((n, t, _, d), (n', t', d')) := p in
                 (n =? n')%nat && oz_eqb t (Some t') && text_eqb d d') (combine l want)
  | Raise _ => false
  end.
(* the tests shuffle four times at random; here all 24 orders *)
Example test_can_multi_line :
  forallb (fun c => forallb (fun ls => parses_as c ls [(4%nat, 0, [73; 4] ++ count_up 25 0)]) (orders can_lines)) CAN_11 = true
  /\ length (orders can_lines) = 24%nat.
Proof. split; vm_compute; reflexivity. Qed.
Example test_can_missing_frames :
  forallb (fun c => forallb (fun n => parses_as c (drop_nth n can_lines) []) [0; 1; 2]%nat) CAN_11 = true.
Proof. vm_compute. reflexivity. Qed.
Example test_can_mode_03 :
  forallb (fun c => parses_as c [str "7E8 10 20 43 04 00 01 02 03"; str "7E8 21 04 05 06 07 08 09 0A"]
                      [(2%nat, 0, [67; 4] ++ count_up 8 0)]) CAN_11 = true.
Proof. vm_compute. reflexivity. Qed.

Example test_legacy_single_frame : Forall (fun c =>
  parse c [str "48 6B 10 41 00 FF"] = Ok [(1%nat, Some 16, ECU_ENGINE, [65; 0])]
  /\ parse c [str "48 6B 10 41 00 00 01 02 03 04 FF"] = Ok [(1%nat, Some 16, ECU_ENGINE, [65; 0; 0; 1; 2; 3; 4])]
  /\ parse c [str "48 6B 10 41 FF"] = Ok []
  /\ parse c [str "48 6B 10 41 00 00 01 02 03 04 05 FF"] = Ok []
  /\ parse c [str "48 6B 10 41 00 00 F"] = Ok []) LEGACY.
Proof. repeat constructor. Qed.
Example test_legacy_straining : Forall (fun c =>
  let junk := (1%nat, None, ECU_UNKNOWN, []) in
  parse c [str "12.8 Volts"] = Ok [junk]
  /\ parse c [str "12.8 Volts"; str "NO DATA"] = Ok [junk; junk]
  /\ parse c [str "NO DATA"; str "48 6B 10 41 00 00 01 02 03 FF"] = Ok [(1%nat, Some 16, ECU_ENGINE, [65; 0; 0; 1; 2; 3]); junk]) LEGACY.
Proof. repeat constructor. Qed.
Example test_legacy_multi_ecu :
  forallb (fun c => parses_as c [str "48 6B 13 41 00 00 01 02 03 FF"; str "48 6B 10 41 00 00 01 02 03 FF"; str "48 6B 11 41 00 00 01 02 03 FF"]
     [(1%nat, 16, [65; 0; 0; 1; 2; 3]); (1%nat, 17, [65; 0; 0; 1; 2; 3]); (1%nat, 19, [65; 0; 0; 1; 2; 3])]) LEGACY = true.
Proof. vm_compute. reflexivity. Qed.
Definition legacy_lines := [str "48 6B 10 49 02 01 00 01 02 03 FF"; str "48 6B 10 49 02 02 04 05 06 07 FF"; str "48 6B 10 49 02 03 08 09 0A 0B FF"].
Example test_legacy_multi_line :
  forallb (fun c => forallb (fun ls => parses_as c ls [(3%nat, 16, [73; 2] ++ count_up 12 0)]) (orders legacy_lines)) LEGACY = true
  /\ forallb (fun c => forallb (fun n => parses_as c (drop_nth n legacy_lines) []) [0; 1]%nat) LEGACY = true
  /\ forallb (fun c => parses_as c [str "48 6B 10 43 00 01 02 03 04 05 FF"; str "48 6B 10 43 06 07 08 09 0A 0B FF"]
                         [(2%nat, 16, [67; 0] ++ count_up 12 0)]) LEGACY = true.
Proof. repeat split; vm_compute; reflexivity. Qed.

(* ---- tests/test_OBDCommand.py ---- *)
Definition cmd (request : text) (n : Z) := mkCommand (str "Test") (str "example OBD command") request n D_noop ECU_ENGINE false [].
(* :5-24, :63-84 *)
Example test_mode_pid :
  c_mode (cmd (str "0123") 2) = Some 1 /\ c_pid (cmd (str "0123") 2) = Some 35
  /\ c_mode (cmd [] 4) = None /\ c_mode (cmd (str "totally not hex") 4) = None /\ c_pid (cmd (str "01") 4) = None.
Proof. vm_compute. repeat split. Qed.
(* :41-60. The test calls three commands on the same message objects; OBDCommand.py:115-121 replaces their data in
   place, so each call sees what the one before left: here the responses are threaded the same way. *)
Example test_call :
  match new_protocol SAE_J1850_PWM [str "48 6B 10 41 00 FF FF FF FF AA"] with
  | Ok p => match call p [str "48 6B 10 41 00 BE 1F B8 11 AA"] with
      | Ok ms => match cmd_call (cmd (str "0123") 6) ms with
          | Ok r1 => match cmd_call (cmd (str "0123") 7) (r_messages r1) with
              | Ok r2 => match cmd_call (cmd (str "0123") 5) (r_messages r2) with
                  | Ok r3 => r_value r1 = VBytes [65; 0; 190; 31; 184; 17]
                             /\ r_value r2 = VBytes [65; 0; 190; 31; 184; 17; 0]
                             /\ r_value r3 = VBytes [65; 0; 190; 31; 184]
                  | Raise _ => False end
              | Raise _ => False end
          | Raise _ => False end
      | Raise _ => False end
  | Raise _ => False end.
Proof. vm_compute. repeat split. Qed.

(* ---- tests/test_commands.py ---- *)
Definition indexed {A} (l : list A) : list (Z * A) := combine (map Z.of_nat (seq 0 (length l))) l.
Definition each (f : Z -> list (option command) -> Z -> command -> bool) : bool :=
  forallb (fun ml => let '(mode, l) := ml in
    forallb (fun pc => match snd pc with None => true | Some c => f mode l (fst pc) c end) (indexed l)) (indexed modes).
(* :5-32 *)
Example test_list_integrity : each (fun mode l i c =>
  nonempty (c_command c) && oz_eqb (c_mode c) (Some mode)
  && (if (1 <? length l)%nat then oz_eqb (c_pid c) (Some i) else oz_eqb (c_pid c) (Some i) || oz_eqb (c_pid c) None)
  && nonempty (c_name c) && isupper (c_name c) && negb (existsb (Z.eqb 32) (c_name c)) && nonempty (c_desc c)
  && (1 <=? mode) && (mode <=? 9) && (0 <=? i) && (i <=? 196) && (0 <=? c_bytes c)) = true.
Proof. vm_compute. reflexivity. Qed.
(* :50-69 *)
Example test_getitem : each (fun mode l i c =>
  match get_mode mode, get_name (c_name c) with
  | Ok l', Ok c' => match c_pid c with
      | None => (length l =? 1)%nat && match nth 0 l' None with Some x => cmd_eqb c x | None => false end
      | Some p => match nth (Z.to_nat p) l' None with Some x => cmd_eqb c x | None => false end
      end && cmd_eqb c c'
  | _, _ => false
  end) = true.
Proof. vm_compute. reflexivity. Qed.
(* :72-101 *)
Example test_contains : each (fun mode l i c =>
  has_command c && has_pid mode (match c_pid c with Some p => p | None => 0 end) && has_name (c_name c)) = true
  /\ has_name (str "modes") = false /\ has_pid (-1) 0 = false /\ has_pid 1 (-1) = false.
Proof. repeat split; vm_compute; reflexivity. Qed.
(* :104-115 *)
Example test_pid_getters : each (fun mode l i c => negb (is_pid_decoder (c_decode c)) || existsb (cmd_eqb c) pid_getters) = true.
Proof. vm_compute. reflexivity. Qed.
