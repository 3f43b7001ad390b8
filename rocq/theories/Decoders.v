(* Model of obd/decoders.py, of UAS in obd/UnitsAndScaling.py and of the value types in obd/OBDResponse.py.
   No proofs in this file. *)
From Coq Require Import ZArith List Bool.
From Verif Require Import Py Num Utils Protocol Codes UasTable.
Import ListNotations.
Open Scope Z_scope.

(* OBDResponse.py:96-100  StatusTest; the name is None for reserved bits *)
Record status_test := mkStatusTest { st_name : option text; st_available : bool; st_complete : bool }.
(* OBDResponse.py:81-93  Status; st_tests is the part of __dict__ filled with tests *)
Record status_value := mkStatus {
  st_MIL : bool; st_DTC_count : Z; st_ignition_type : text;
  st_tests : list (option text * status_test) }.

(* a decoded value inside a monitor test: a quantity or, for UAS id 0x2E, a bool *)
Inductive tval : Type := TQty (n : num) (unit : text) | TBool (b : bool).
(* OBDResponse.py:149-156  MonitorTest *)
Record mtest := mkTest {
  t_tid : option Z; t_name : option text; t_desc : option text;
  t_value : option tval; t_min : option tval; t_max : option tval }.
(* OBDResponse.py:108-120  Monitor: _tests by TID, and the tests in __dict__ by name *)
Record monitor_value := mkMonitor { mon_tests : list (Z * mtest); mon_names : list (text * mtest) }.

(* the Python objects decoders return *)
Inductive value : Type :=
| VNone
| VBytes (d : bytes)                       (* bytearray *)
| VText (s : text)
| VBool (b : bool)
| VQty (n : num) (unit : text)             (* pint Quantity: magnitude and unit *)
| VBits (a : bitarray)
| VTuple (banks : list (list bool))        (* tuple of tuples of bools *)
| VPair (a b : text)
| VDtc (code desc : text)
| VDtcs (l : list (text * text))
| VStatus (s : status_value)
| VMonitor (m : monitor_value)
| VCustom (z : Z).                         (* whatever a user's own decoder returns *)

(* quantity written  x * Unit.u  *)
Definition qty (n : num) (u : String.string) : value := VQty n (str u).
Arguments qty n u%string_scope.
Definition F (n d : Z) : num := PyFloat (float_of_ratio (n <? 0) (Z.abs n) d).   (* the float literal n/d *)

(* ------------------------------------------------------------------ *)
(* UnitsAndScaling.py:58-66  UAS.__call__ (and :117 for 0x2E). 1 << -1 in twos_comp raises ValueError. *)
Definition uas_call (u : uas) (bs : bytes) : res tval :=
  match u with
  | UAS_any => Ok (TBool (existsb (fun x => negb (x =? 0)) bs))
  | UAS signed scale unit offset =>
      let v := bytes_to_int bs in
      let! v := if signed then
                  if zlen bs * 8 <? 1 then Raise ValueError else Ok (twos_comp v (zlen bs * 8))
                else Ok v in
      let v := num_mul (PyInt v) (lit_num scale) in
      let v := num_add v (lit_num offset) in
      Ok (TQty v unit)
  end.
Definition value_of_tval (t : tval) : value :=
  match t with TQty n u => VQty n u | TBool b => VBool b end.

(* messages[0].data[2:] *)
Definition body (messages : list message) : res bytes :=
  let! m := get messages 0 in Ok (from 2 (m_data m)).

(* decoders.py:55-56 *)
Definition dec_drop (_ : list message) : res value := Ok VNone.
(* decoders.py:60-61 *)
Definition dec_noop (messages : list message) : res value := let! m := get messages 0 in Ok (VBytes (m_data m)).
(* decoders.py:65-67 *)
Definition dec_pid (messages : list message) : res value := let! d := body messages in Ok (VBits (ba_of d)).
(* decoders.py:71-72 *)
Definition dec_raw_string (messages : list message) : res value := Ok (VText (join [10] (map m_raw messages))).
(* decoders.py:87-89  decode_uas *)
Definition dec_uas (id : Z) (messages : list message) : res value :=
  let! d := body messages in
  match dict_get Z.eqb UAS_IDS id with
  | None => Raise KeyError
  | Some u => let! t := uas_call u d in Ok (value_of_tval t)
  end.
(* decoders.py:97-100 *)
Definition dec_count (messages : list message) : res value :=
  let! d := body messages in Ok (qty (PyInt (bytes_to_int d)) "count").
(* decoders.py:103-107 *)
Definition dec_percent (messages : list message) : res value :=
  let! d := body messages in
  let! v := get d 0 in
  Ok (qty (num_div (num_mul (PyInt v) (F 100 1)) (F 255 1)) "percent").
(* decoders.py:111-115 *)
Definition dec_percent_centered (messages : list message) : res value :=
  let! d := body messages in
  let! v := get d 0 in
  Ok (qty (num_div (num_mul (num_sub (PyInt v) (PyInt 128)) (F 100 1)) (F 128 1)) "percent").
(* decoders.py:119-123 *)
Definition dec_temp (messages : list message) : res value :=
  let! d := body messages in Ok (qty (num_sub (PyInt (bytes_to_int d)) (PyInt 40)) "celsius").
(* decoders.py:127-131 *)
Definition dec_current_centered (messages : list message) : res value :=
  let! d := body messages in
  let v := bytes_to_int (slice 2 4 d) in
  Ok (qty (num_sub (num_div (PyInt v) (F 256 1)) (PyInt 128)) "milliampere").
(* decoders.py:135-138 *)
Definition dec_sensor_voltage (messages : list message) : res value :=
  let! d := body messages in
  let! v := get d 0 in
  Ok (qty (num_div (PyInt v) (F 200 1)) "volt").
(* decoders.py:142-146 *)
Definition dec_sensor_voltage_big (messages : list message) : res value :=
  let! d := body messages in
  let v := bytes_to_int (slice 2 4 d) in
  Ok (qty (num_div (num_mul (PyInt v) (F 8 1)) (PyInt 65535)) "volt").
(* decoders.py:150-154 *)
Definition dec_fuel_pressure (messages : list message) : res value :=
  let! d := body messages in
  let! v := get d 0 in
  Ok (qty (num_mul (PyInt v) (PyInt 3)) "kilopascal").
(* decoders.py:158-161 *)
Definition dec_pressure (messages : list message) : res value :=
  let! d := body messages in
  let! v := get d 0 in
  Ok (qty (PyInt v) "kilopascal").
(* decoders.py:165-171 *)
Definition dec_evap_pressure (messages : list message) : res value :=
  let! d := body messages in
  let! d0 := get d 0 in
  let! d1 := get d 1 in
  let a := twos_comp d0 8 in
  let b := twos_comp d1 8 in
  Ok (qty (num_div (num_add (num_mul (PyInt a) (F 256 1)) (PyInt b)) (F 4 1)) "pascal").
(* decoders.py:175-179 *)
Definition dec_abs_evap_pressure (messages : list message) : res value :=
  let! d := body messages in Ok (qty (num_div (PyInt (bytes_to_int d)) (F 200 1)) "kilopascal").
(* decoders.py:183-187 *)
Definition dec_evap_pressure_alt (messages : list message) : res value :=
  let! d := body messages in Ok (qty (num_sub (PyInt (bytes_to_int d)) (PyInt 32767)) "pascal").
(* decoders.py:191-195 *)
Definition dec_timing_advance (messages : list message) : res value :=
  let! d := body messages in
  let! v := get d 0 in
  Ok (qty (num_div (num_sub (PyInt v) (PyInt 128)) (F 2 1)) "degree").
(* decoders.py:199-203 *)
Definition dec_inject_timing (messages : list message) : res value :=
  let! d := body messages in
  Ok (qty (num_div (num_sub (PyInt (bytes_to_int d)) (PyInt 26880)) (F 128 1)) "degree").
(* decoders.py:207-211 *)
Definition dec_max_maf (messages : list message) : res value :=
  let! d := body messages in
  let! v := get d 0 in
  Ok (qty (num_mul (PyInt v) (PyInt 10)) "gps").
(* decoders.py:215-219 *)
Definition dec_fuel_rate (messages : list message) : res value :=
  let! d := body messages in Ok (qty (num_mul (PyInt (bytes_to_int d)) (F 5 100)) "liters_per_hour").
(* decoders.py:223-230 *)
Definition dec_o2_sensors (messages : list message) : res value :=
  let! d := body messages in
  let bits := ba_of d in
  Ok (VTuple [[]; ba_slice bits 0 4; ba_from bits 4]).
(* decoders.py:233-235 *)
Definition dec_aux_input_status (messages : list message) : res value :=
  let! d := body messages in
  let! d0 := get d 0 in
  Ok (VBool (Z.land (Z.shiftr d0 7) 1 =? 1)).
(* decoders.py:239-248 *)
Definition dec_o2_sensors_alt (messages : list message) : res value :=
  let! d := body messages in
  let bits := ba_of d in
  Ok (VTuple [[]; ba_slice bits 0 2; ba_slice bits 2 4; ba_slice bits 4 6; ba_from bits 6]).
(* decoders.py:252-256 *)
Definition dec_absolute_load (messages : list message) : res value :=
  let! d := body messages in
  Ok (qty (num_mul (PyInt (bytes_to_int d)) (num_div (F 100 1) (F 255 1))) "percent").
(* decoders.py:259-271 *)
Definition dec_elm_voltage (messages : list message) : res value :=
  let! m := get messages 0 in
  let! f := get (m_frames m) 0 in
  let v := remove_char 118 (lower (f_raw f)) in
  match py_float v with
  | Some x => Ok (qty (PyFloat x) "volt")
  | None => Ok VNone
  end.

(* ------------------------------------------------------------------ *)
Definition otext_eqb (a b : option text) : bool :=
  match a, b with
  | Some x, Some y => text_eqb x y
  | None, None => true
  | _, _ => false
  end.
(* OBDResponse.py:82-93  Status(): every named test starts as one shared null test *)
Definition null_status_test := mkStatusTest (Some []) false false.
Definition initial_tests : list (option text * status_test) :=
  fold_left (fun d name => match name with
                           | Some _ => dict_set otext_eqb d name null_status_test
                           | None => d
                           end)
            (BASE_TESTS ++ SPARK_TESTS ++ COMPRESSION_TESTS) [].
(* decoders.py:301-303, 307-310, 313-316  the i-th name of names[::-1] gets the bits avail+i and compl+i *)
Fixpoint load_tests (bits : bitarray) (avail compl : Z) (names : list (option text))
         (d : list (option text * status_test)) : list (option text * status_test) :=
  match names with
  | [] => d
  | name :: t =>
      load_tests bits (avail + 1) (compl + 1) t
        (dict_set otext_eqb d name (mkStatusTest name (ba_get bits avail) (negb (ba_get bits compl))))
  end.
(* decoders.py:280-318 *)
Definition dec_status (messages : list message) : res value :=
  let! d := body messages in
  let bits := ba_of d in
  let! ign := get IGNITION_TYPE (if ba_get bits 12 then 1 else 0)%nat in
  let t := load_tests bits 13 9 (rev BASE_TESTS) initial_tests in
  let t := if ba_get bits 12 then load_tests bits 16 24 (rev COMPRESSION_TESTS) t
           else load_tests bits 16 24 (rev SPARK_TESTS) t in
  Ok (VStatus (mkStatus (ba_get bits 0) (ba_value bits 1 8) ign t)).

(* list.index(True) *)
Fixpoint index_true (l : list bool) : res nat :=
  match l with
  | [] => Raise ValueError
  | true :: _ => Ok O
  | false :: t => let! i := index_true t in Ok (S i)
  end.
(* decoders.py:328-334, 336-342  one half of fuel_status. 7 - index is never negative here (index < 8). *)
Definition fuel_status_half (bits : list bool) : res text :=
  if count_true bits =? 1 then
    let! i := index_true bits in
    if 7 - Z.of_nat i <? zlen FUEL_STATUS then get FUEL_STATUS (7 - i) else Ok []
  else Ok [].
(* decoders.py:321-347 *)
Definition dec_fuel_status (messages : list message) : res value :=
  let! d := body messages in
  let bits := ba_of d in
  let! s1 := fuel_status_half (ba_slice bits 0 8) in
  let! s2 := fuel_status_half (ba_slice bits 8 16) in
  if negb (nonempty s1) && negb (nonempty s2) then Ok VNone else Ok (VPair s1 s2).
(* decoders.py:350-360 *)
Definition dec_air_status (messages : list message) : res value :=
  let! d := body messages in
  let bits := ba_of d in
  if num_set bits =? 1 then
    let! i := index_true (ba_slice bits 0 8) in
    let! s := get AIR_STATUS (7 - i) in
    Ok (VText s)
  else Ok VNone.
(* decoders.py:363-374 *)
Definition dec_obd_compliance (messages : list message) : res value :=
  let! d := body messages in
  let! i := get d 0 in
  if i <? zlen OBD_COMPLIANCE then let! s := get OBD_COMPLIANCE (Z.to_nat i) in Ok (VText s) else Ok VNone.
(* decoders.py:377-388 *)
Definition dec_fuel_type (messages : list message) : res value :=
  let! d := body messages in
  let! i := get d 0 in
  if i <? zlen FUEL_TYPES then let! s := get FUEL_TYPES (Z.to_nat i) in Ok (VText s) else Ok VNone.

(* decoders.py:391-410  parse_dtc. is_tuple says whether the argument is a tuple (as dtc passes it) or a bytearray (as
   single_dtc does): a bytearray never equals the tuple (0, 0). *)
Definition parse_dtc (is_tuple : bool) (bs : bytes) : res (option (text * text)) :=
  if negb (zlen bs =? 2) || (is_tuple && text_eqb bs [0; 0]) then Ok None
  else
    let! b0 := get bs 0 in
    let! letter := get [str "P"; str "C"; str "B"; str "U"] (Z.to_nat (Z.shiftr b0 6)) in
    let dtc := letter ++ str_nat (Z.to_nat (Z.land (Z.shiftr b0 4) 3)) ++ slice 1 4 (bytes_to_hex bs) in
    Ok (Some (dtc, match dict_get text_eqb DTC dtc with Some desc => desc | None => [] end)).
(* decoders.py:413-416 *)
Definition dec_single_dtc (messages : list message) : res value :=
  let! d := body messages in
  let! r := parse_dtc false d in
  match r with Some (c, desc) => Ok (VDtc c desc) | None => Ok VNone end.
(* decoders.py:428-434  for n in range(1, len(d), 2): the pairs (d[n-1], d[n]) *)
Fixpoint dtc_pairs (d : bytes) : res (list (text * text)) :=
  match d with
  | a :: b :: t =>
      let! r := parse_dtc true [a; b] in
      let! rest := dtc_pairs t in
      Ok (match r with Some c => c :: rest | None => rest end)
  | _ => Ok []
  end.
(* decoders.py:419-436 *)
Definition dec_dtc (messages : list message) : res value :=
  let d := List.concat (map (fun m => from 2 (m_data m)) messages) in
  let! codes := dtc_pairs d in
  Ok (VDtcs codes).

(* ------------------------------------------------------------------ *)
(* OBDResponse.py:150-156 *)
Definition null_test := mkTest None None None None None None.
(* OBDResponse.py:109-120  Monitor() *)
Definition new_monitor : monitor_value :=
  mkMonitor (fold_left (fun d kv => dict_set Z.eqb d (fst kv) null_test) TEST_IDS [])
            (fold_left (fun d kv => dict_set text_eqb d (fst (snd kv)) null_test) TEST_IDS []).
(* OBDResponse.py:122-125  add_test; test.tid is an int here *)
Definition add_test (m : monitor_value) (t : mtest) : monitor_value :=
  mkMonitor (match t_tid t with Some tid => dict_set Z.eqb (mon_tests m) tid t | None => mon_tests m end)
            (match t_name t with Some n => dict_set text_eqb (mon_names m) n t | None => mon_names m end).
(* OBDResponse.py:165-169 *)
Definition test_is_null (t : mtest) : bool :=
  match t_tid t, t_value t, t_min t, t_max t with
  | Some _, Some _, Some _, Some _ => false
  | _, _, _, _ => true
  end.
(* OBDResponse.py:127-129  Monitor.tests *)
Definition monitor_tests (m : monitor_value) : list mtest :=
  filter (fun t => negb (test_is_null t)) (map snd (mon_tests m)).
(* OBDResponse.py:140-144  Monitor[key] *)
Definition monitor_get_tid (m : monitor_value) (tid : Z) : mtest :=
  match dict_get Z.eqb (mon_tests m) tid with Some t => t | None => null_test end.
Definition monitor_get_name (m : monitor_value) (name : text) : mtest :=
  match dict_get text_eqb (mon_names m) name with Some t => t | None => null_test end.
(* comparison of decoded values: the three values of one test come from one UAS entry, so the units agree and pint
   compares magnitudes; bools compare as ints *)
Definition tval_le (a b : tval) : bool :=
  match a, b with
  | TQty x _, TQty y _ => num_le x y
  | TBool x, TBool y => implb x y
  | TBool x, TQty y _ => num_le (PyInt (Z.b2z x)) y
  | TQty x _, TBool y => num_le x (PyInt (Z.b2z y))
  end.
(* OBDResponse.py:158-163  MonitorTest.passed *)
Definition test_passed (t : mtest) : bool :=
  match t_tid t, t_value t, t_min t, t_max t with
  | Some _, Some v, Some lo, Some hi => tval_le lo v && tval_le v hi
  | _, _, _, _ => false
  end.

(* decoders.py:439-465  parse_monitor_test, d is a block of 9 bytes *)
Definition parse_monitor_test (d : bytes) : res (option mtest) :=
  let! tid := get d 1 in
  let '(name, desc) := match dict_get Z.eqb TEST_IDS tid with
                       | Some nd => nd
                       | None => (str "Unknown", str "Unknown")
                       end in
  let! id := get d 2 in
  match dict_get Z.eqb UAS_IDS id with
  | None => Ok None
  | Some u =>
      let! v := uas_call u (slice 3 5 d) in
      let! lo := uas_call u (slice 5 7 d) in
      let! hi := uas_call u (from 7 d) in
      Ok (Some (mkTest (Some tid) (Some name) (Some desc) (Some v) (Some lo) (Some hi)))
  end.
(* decoders.py:484-488  for n in range(0, len(d), 9); fuel is the number of blocks *)
Fixpoint monitor_blocks (fuel : nat) (d : bytes) (mon : monitor_value) : res monitor_value :=
  match fuel with
  | O => Ok mon
  | S k =>
      let! t := parse_monitor_test (upto 9 d) in
      monitor_blocks k (from 9 d) (match t with Some t => add_test mon t | None => mon end)
  end.
(* decoders.py:468-490 *)
Definition dec_monitor (messages : list message) : res value :=
  let! m := get messages 0 in
  let d := from 1 (m_data m) in
  let extra := Nat.modulo (length d) 9 in
  let d := upto (length d - extra) d in
  let! mon := monitor_blocks (Nat.div (length d) 9) d new_monitor in
  Ok (VMonitor mon).

(* decoders.py:508  .strip(b'\x00' b'\x01' b'\x02' b'\\x00' b'\\x01' b'\\x02'): the literal is the bytes
   0, 1, 2, and the characters \ x 0 1 2 *)
Definition string_padding (c : Z) : bool :=
  existsb (Z.eqb c) [0; 1; 2; 92; 120; 48; 49; 50].
(* decoders.py:498-508; None when too short *)
Definition decode_encoded_string (length_ : Z) (messages : list message) : res (option bytes) :=
  let! d := body messages in
  if zlen d <? length_ then Ok None
  else Ok (Some (strip_by string_padding (strip_by bspace d))).
(* decoders.py:493-495 *)
Definition dec_encoded_string (length_ : Z) (messages : list message) : res value :=
  let! r := decode_encoded_string length_ messages in
  match r with Some d => Ok (VBytes d) | None => Ok VNone end.
(* decoders.py:511-515 *)
Definition dec_cvn (messages : list message) : res value :=
  let! r := decode_encoded_string 4 messages in
  match r with Some d => Ok (VText (bytes_to_hex d)) | None => Ok VNone end.

(* ------------------------------------------------------------------ *)
(* the decoder attribute of a command: a function of decoders.py, or any function of the user's *)
Inductive decoder : Type :=
| D_drop | D_noop | D_pid | D_raw_string | D_uas (id : Z) | D_count | D_percent | D_percent_centered | D_temp
| D_current_centered | D_sensor_voltage | D_sensor_voltage_big | D_fuel_pressure | D_pressure | D_evap_pressure
| D_abs_evap_pressure | D_evap_pressure_alt | D_timing_advance | D_inject_timing | D_max_maf | D_fuel_rate
| D_o2_sensors | D_aux_input_status | D_o2_sensors_alt | D_absolute_load | D_elm_voltage | D_status | D_fuel_status
| D_air_status | D_obd_compliance | D_fuel_type | D_single_dtc | D_dtc | D_monitor | D_encoded_string (length_ : Z)
| D_cvn
| D_custom (f : list message -> res value).

Definition run_decoder (d : decoder) : list message -> res value :=
  match d with
  | D_drop => dec_drop | D_noop => dec_noop | D_pid => dec_pid | D_raw_string => dec_raw_string
  | D_uas id => dec_uas id | D_count => dec_count | D_percent => dec_percent
  | D_percent_centered => dec_percent_centered | D_temp => dec_temp | D_current_centered => dec_current_centered
  | D_sensor_voltage => dec_sensor_voltage | D_sensor_voltage_big => dec_sensor_voltage_big
  | D_fuel_pressure => dec_fuel_pressure | D_pressure => dec_pressure | D_evap_pressure => dec_evap_pressure
  | D_abs_evap_pressure => dec_abs_evap_pressure | D_evap_pressure_alt => dec_evap_pressure_alt
  | D_timing_advance => dec_timing_advance | D_inject_timing => dec_inject_timing | D_max_maf => dec_max_maf
  | D_fuel_rate => dec_fuel_rate | D_o2_sensors => dec_o2_sensors | D_aux_input_status => dec_aux_input_status
  | D_o2_sensors_alt => dec_o2_sensors_alt | D_absolute_load => dec_absolute_load
  | D_elm_voltage => dec_elm_voltage | D_status => dec_status | D_fuel_status => dec_fuel_status
  | D_air_status => dec_air_status | D_obd_compliance => dec_obd_compliance | D_fuel_type => dec_fuel_type
  | D_single_dtc => dec_single_dtc | D_dtc => dec_dtc | D_monitor => dec_monitor
  | D_encoded_string n => dec_encoded_string n | D_cvn => dec_cvn
  | D_custom f => f
  end.

(* decode == pid *)
Definition is_pid_decoder (d : decoder) : bool := match d with D_pid => true | _ => false end.
