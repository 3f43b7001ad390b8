(* The units and scalings of the mode 06 standard (SAE J1979, "Unit and Scaling IDs"), with the unit names of this library; written down by hand, not copied from the code.
   An entry: id, scale (a fraction), offset (a fraction), unit. Ids from 128 stand for signed numbers. The truth value 0x2E is not among them. No proofs in this file. *)
From Coq Require Import ZArith List Reals String.
From Verif Require Import Py.
Import ListNotations.
Open Scope Z_scope.

Record scaling := mkScaling { u_id : Z; u_scale : Z * Z; u_offset : Z * Z; u_unit : text }.
Definition entry (id n d : Z) (unit : String.string) : scaling := mkScaling id (n, d) (0, 1) (str unit).
Definition standard_units : list scaling := [
  (* plain numbers *)
  entry 1 1 1 "count"; entry 2 1 10 "count"; entry 3 1 100 "count"; entry 4 1 1000 "count"; entry 5 305 10000000 "count"; entry 6 305 1000000 "count"; entry 36 1 1 "count"; entry 43 1 1 "count";
  entry 129 1 1 "count"; entry 130 1 10 "count"; entry 131 1 100 "count"; entry 132 1 1000 "count"; entry 133 305 10000000 "count"; entry 134 305 1000000 "count";
  (* ratios, percentages, parts per million *)
  entry 30 305 10000000 "ratio"; entry 31 1 20 "ratio"; entry 32 1 256 "ratio"; entry 51 24414 100000000 "ratio";
  entry 47 1 100 "percent"; entry 48 1526 1000000 "percent"; mkScaling 57 (1, 100) (-32768, 100) (str "percent"); entry 175 1 100 "percent"; entry 176 3052 1000000 "percent";
  entry 64 1 1 "ppm"; entry 135 1 1 "ppm";
  (* revolutions, speed, distance, area *)
  entry 7 1 4 "rpm"; entry 8 1 100 "kph"; entry 9 1 1 "kph"; entry 37 1 1 "kilometer"; entry 50 305 10000000 "inch"; entry 62 6103516 100000000000 "millimeter ** 2";
  (* electricity *)
  entry 10 122 1000 "millivolt"; entry 11 1 1000 "volt"; entry 12 1 100 "volt"; entry 138 122 1000 "millivolt"; entry 139 1 1000 "volt"; entry 140 1 100 "volt";
  entry 13 1 256 "milliampere"; entry 14 1 1000 "ampere"; entry 15 1 100 "ampere"; entry 61 1 100 "milliampere"; entry 65 1 100 "microampere"; entry 141 1 256 "milliampere"; entry 142 1 1000 "ampere";
  entry 19 1 1 "milliohm"; entry 20 1 1 "ohm"; entry 21 1 1 "kiloohm"; entry 38 1 10 "millivolt / millisecond"; entry 177 2 1 "millivolt / second";
  (* time and frequency *)
  entry 16 1 1 "millisecond"; entry 17 100 1 "millisecond"; entry 18 1 1 "second"; entry 52 1 1 "minute"; entry 53 10 1 "millisecond"; entry 60 1 10 "microsecond"; entry 144 1 1 "millisecond";
  entry 33 1 1 "millihertz"; entry 34 1 1 "hertz"; entry 35 1 1 "kilohertz";
  (* temperature *)
  mkScaling 22 (1, 10) (-40, 1) (str "celsius"); entry 150 1 10 "celsius";
  (* pressure *)
  entry 23 1 100 "kilopascal"; entry 24 117 10000 "kilopascal"; entry 25 79 1000 "kilopascal"; entry 26 1 1 "kilopascal"; entry 27 10 1 "kilopascal"; entry 153 1 10 "kilopascal";
  entry 252 1 100 "kilopascal"; entry 253 1 1000 "kilopascal"; entry 254 1 4 "pascal"; entry 41 1 4 "pascal / second"; entry 169 1 4 "pascal / second";
  (* angles *)
  entry 28 1 100 "degree"; entry 29 1 2 "degree"; entry 156 1 100 "degree"; entry 157 1 2 "degree";
  (* mass, flow, volume; grams per cylinder and milligrams per stroke are grams and milligrams *)
  entry 39 1 100 "grams_per_second"; entry 40 1 1 "grams_per_second"; entry 168 1 1 "grams_per_second"; entry 42 1 1000 "kilogram / hour";
  entry 44 1 100 "gram"; entry 45 1 100 "milligram"; entry 173 1 100 "milligram"; entry 174 1 10 "milligram";
  entry 54 1 100 "gram"; entry 55 1 10 "gram"; entry 56 1 1 "gram"; entry 58 1 1000 "gram"; entry 59 1 10000 "gram";
  entry 49 1 1000 "liter"; entry 63 1 100 "liter" ].

Definition frac (x : Z * Z) : R := (IZR (fst x) / IZR (snd x))%R.
(* the truth value unit *)
Definition truth_id : Z := 46.
(* the nine bytes are about the test tid, in a unit of the standard *)
Definition about (tid : Z) (b : list Z) : Prop := nth 1 b 0 = tid /\ (In (nth 2 b 0) (map u_id standard_units) \/ nth 2 b 0 = truth_id).

(* what the codes of PID 1C (which OBD standards the car conforms to) and PID 51 (fuel) stand for; codes that are not listed stand for nothing; the numbers
   are the standard's, the words the library's *)
Definition standard_compliance : list (Z * text) := [
  (0, str "Undefined"); (1, str "OBD-II as defined by the CARB"); (2, str "OBD as defined by the EPA"); (3, str "OBD and OBD-II");
  (4, str "OBD-I"); (5, str "Not OBD compliant"); (6, str "EOBD (Europe)"); (7, str "EOBD and OBD-II");
  (8, str "EOBD and OBD"); (9, str "EOBD, OBD and OBD II"); (10, str "JOBD (Japan)"); (11, str "JOBD and OBD II");
  (12, str "JOBD and EOBD"); (13, str "JOBD, EOBD, and OBD II"); (14, str "Reserved"); (15, str "Reserved");
  (16, str "Reserved"); (17, str "Engine Manufacturer Diagnostics (EMD)"); (18, str "Engine Manufacturer Diagnostics Enhanced (EMD+)"); (19, str "Heavy Duty On-Board Diagnostics (Child/Partial) (HD OBD-C)");
  (20, str "Heavy Duty On-Board Diagnostics (HD OBD)"); (21, str "World Wide Harmonized OBD (WWH OBD)"); (22, str "Reserved"); (23, str "Heavy Duty Euro OBD Stage I without NOx control (HD EOBD-I)");
  (24, str "Heavy Duty Euro OBD Stage I with NOx control (HD EOBD-I N)"); (25, str "Heavy Duty Euro OBD Stage II without NOx control (HD EOBD-II)"); (26, str "Heavy Duty Euro OBD Stage II with NOx control (HD EOBD-II N)"); (27, str "Reserved");
  (28, str "Brazil OBD Phase 1 (OBDBr-1)"); (29, str "Brazil OBD Phase 2 (OBDBr-2)"); (30, str "Korean OBD (KOBD)"); (31, str "India OBD I (IOBD I)");
  (32, str "India OBD II (IOBD II)"); (33, str "Heavy Duty Euro OBD Stage VI (HD EOBD-IV)") ].
Definition standard_fuels : list (Z * text) := [
  (0, str "Not available"); (1, str "Gasoline"); (2, str "Methanol"); (3, str "Ethanol");
  (4, str "Diesel"); (5, str "LPG"); (6, str "CNG"); (7, str "Propane");
  (8, str "Electric"); (9, str "Bifuel running Gasoline"); (10, str "Bifuel running Methanol"); (11, str "Bifuel running Ethanol");
  (12, str "Bifuel running LPG"); (13, str "Bifuel running CNG"); (14, str "Bifuel running Propane"); (15, str "Bifuel running Electricity");
  (16, str "Bifuel running electric and combustion engine"); (17, str "Hybrid gasoline"); (18, str "Hybrid Ethanol"); (19, str "Hybrid Diesel");
  (20, str "Hybrid Electric"); (21, str "Hybrid running electric and combustion engine"); (22, str "Hybrid Regenerative"); (23, str "Bifuel running diesel") ].
(* what the bits of the bytes of PID 03 (fuel systems) and PID 12 (secondary air) stand for *)
Definition standard_fuel_status : list (Z * text) := [
  (0, str "Open loop due to insufficient engine temperature"); (1, str "Closed loop, using oxygen sensor feedback to determine fuel mix");
  (2, str "Open loop due to engine load OR fuel cut due to deceleration"); (3, str "Open loop due to system failure");
  (4, str "Closed loop, using at least one oxygen sensor but there is a fault in the feedback system") ].
Definition standard_air_status : list (Z * text) := [
  (0, str "Upstream"); (1, str "Downstream of catalytic converter"); (2, str "From the outside atmosphere or off"); (3, str "Pump commanded on for diagnostics") ].
