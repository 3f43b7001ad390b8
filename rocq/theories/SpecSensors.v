(* The documented meaning of the scalar sensors (SAE J1979 mode 01 formulas and the range comments in obd/decoders.py),
   independent of the model's decoders: value = (raw * mul + add) / div, raw being the big-endian number in the data
   bytes first .. first+count-1. No proofs. *)
From Coq Require Import ZArith Reals List String.
From Verif Require Import Py SpecBits SpecNum.
Import ListNotations.
Open Scope Z_scope.

Record sensor := mkSensor {
  s_names : list String.string;      (* the commands *)
  s_len : nat;                       (* data bytes in the answer *)
  s_first : nat; s_count : nat;      (* the bytes that carry the number *)
  s_mul : Z; s_add : Z; s_div : Z;
  s_unit : String.string;
  s_min : R; s_max : R }.            (* range *)

Definition s_raw (s : sensor) (d : bytes) : Z := big_endian (firstn (s_count s) (skipn (s_first s) d)).
Definition s_value (s : sensor) (d : bytes) : R :=
  ((IZR (s_raw s d) * IZR (s_mul s) + IZR (s_add s)) / IZR (s_div s))%R.
(* what rounding may change *)
Definition s_error (s : sensor) (d : bytes) : R :=
  (powerRZ 2 (-51) * (Rabs (IZR (s_raw s d) * IZR (s_mul s) / IZR (s_div s)) + Rabs (IZR (s_add s) / IZR (s_div s))))%R.

Open Scope string_scope.
Definition sensors : list sensor := [
  mkSensor ["ENGINE_LOAD"; "THROTTLE_POS"; "COMMANDED_EGR"; "EVAPORATIVE_PURGE"; "FUEL_LEVEL"; "RELATIVE_THROTTLE_POS"; "THROTTLE_POS_B";
            "THROTTLE_POS_C"; "ACCELERATOR_POS_D"; "ACCELERATOR_POS_E"; "ACCELERATOR_POS_F"; "THROTTLE_ACTUATOR"; "ETHANOL_PERCENT";
            "RELATIVE_ACCEL_POS"; "HYBRID_BATTERY_REMAINING"]                        1 0 1   100 0 255      "percent"     0 100;
  mkSensor ["SHORT_FUEL_TRIM_1"; "LONG_FUEL_TRIM_1"; "SHORT_FUEL_TRIM_2"; "LONG_FUEL_TRIM_2"; "EGR_ERROR"]
                                                                                     1 0 1   100 (-12800) 128 "percent"   (-100) 100;
  mkSensor ["SHORT_O2_TRIM_B1"; "LONG_O2_TRIM_B1"; "SHORT_O2_TRIM_B2"; "LONG_O2_TRIM_B2"]
                                                                                     2 0 1   100 (-12800) 128 "percent"   (-100) 100;
  mkSensor ["COOLANT_TEMP"; "INTAKE_TEMP"; "AMBIANT_AIR_TEMP"; "OIL_TEMP"]           1 0 1   1 (-40) 1      "celsius"     (-40) 215;
  mkSensor ["FUEL_PRESSURE"]                                                         1 0 1   3 0 1          "kilopascal"  0 765;
  mkSensor ["INTAKE_PRESSURE"; "BAROMETRIC_PRESSURE"]                                1 0 1   1 0 1          "kilopascal"  0 255;
  mkSensor ["RPM"]                                                                   2 0 2   1 0 4          "rpm"         0 (1638375 / 100);
  mkSensor ["SPEED"]                                                                 1 0 1   1 0 1          "kph"         0 255;
  mkSensor ["TIMING_ADVANCE"]                                                        1 0 1   1 (-128) 2     "degree"      (-64) (635 / 10);
  mkSensor ["MAF"]                                                                   2 0 2   1 0 100        "grams_per_second" 0 (65535 / 100);
  mkSensor ["O2_B1S1"; "O2_B1S2"; "O2_B1S3"; "O2_B1S4"; "O2_B2S1"; "O2_B2S2"; "O2_B2S3"; "O2_B2S4"]
                                                                                     2 0 1   1 0 200        "volt"        0 (1275 / 1000);
  mkSensor ["RUN_TIME"]                                                              2 0 2   1 0 1          "second"      0 65535;
  mkSensor ["DISTANCE_W_MIL"; "DISTANCE_SINCE_DTC_CLEAR"]                            2 0 2   1 0 1          "kilometer"   0 65535;
  mkSensor ["FUEL_RAIL_PRESSURE_VAC"]                                                2 0 2   79 0 1000      "kilopascal"  0 (5177265 / 1000);
  mkSensor ["FUEL_RAIL_PRESSURE_DIRECT"; "FUEL_RAIL_PRESSURE_ABS"]                   2 0 2   10 0 1         "kilopascal"  0 655350;
  mkSensor ["O2_S1_WR_VOLTAGE"; "O2_S2_WR_VOLTAGE"; "O2_S3_WR_VOLTAGE"; "O2_S4_WR_VOLTAGE"; "O2_S5_WR_VOLTAGE"; "O2_S6_WR_VOLTAGE";
            "O2_S7_WR_VOLTAGE"; "O2_S8_WR_VOLTAGE"]                                  4 2 2   8 0 65535      "volt"        0 8;
  mkSensor ["WARMUPS_SINCE_DTC_CLEAR"]                                               1 0 1   1 0 1          "count"       0 255;
  mkSensor ["O2_S1_WR_CURRENT"; "O2_S2_WR_CURRENT"; "O2_S3_WR_CURRENT"; "O2_S4_WR_CURRENT"; "O2_S5_WR_CURRENT"; "O2_S6_WR_CURRENT";
            "O2_S7_WR_CURRENT"; "O2_S8_WR_CURRENT"]                                  4 2 2   1 (-32768) 256 "milliampere" (-128) 128;
  mkSensor ["CATALYST_TEMP_B1S1"; "CATALYST_TEMP_B2S1"; "CATALYST_TEMP_B1S2"; "CATALYST_TEMP_B2S2"]
                                                                                     2 0 2   1 (-400) 10    "celsius"     (-40) (65135 / 10);
  mkSensor ["CONTROL_MODULE_VOLTAGE"]                                                2 0 2   1 0 1000       "volt"        0 (65535 / 1000);
  mkSensor ["ABSOLUTE_LOAD"]                                                         2 0 2   100 0 255      "percent"     0 25700;
  mkSensor ["COMMANDED_EQUIV_RATIO"]                                                 2 0 2   305 0 10000000 "ratio"       0 2;
  mkSensor ["RUN_TIME_MIL"; "TIME_SINCE_DTC_CLEARED"]                                2 0 2   1 0 1          "minute"      0 65535;
  mkSensor ["MAX_MAF"]                                                               4 0 1   10 0 1         "gps"         0 2550;
  mkSensor ["EVAP_VAPOR_PRESSURE_ABS"]                                               2 0 2   1 0 200        "kilopascal"  0 (327675 / 1000);
  mkSensor ["EVAP_VAPOR_PRESSURE_ALT"]                                               2 0 2   1 (-32767) 1   "pascal"      (-32767) 32768;
  mkSensor ["FUEL_INJECT_TIMING"]                                                    2 0 2   1 (-26880) 128 "degree"      (-210) 302;
  mkSensor ["FUEL_RATE"]                                                             2 0 2   1 0 20         "liters_per_hour" 0 (327675 / 100);
  mkSensor ["VIN_MESSAGE_COUNT"; "CALIBRATION_ID_MESSAGE_COUNT"; "CVN_MESSAGE_COUNT"] 1 0 1  1 0 1          "count"       0 255
].
