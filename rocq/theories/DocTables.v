(* Generated by tools/gen_docs.py from docs/Command Tables.md and docs/Responses.md: what the documentation says. No proofs. *)
From Coq Require Import ZArith List.
From Verif Require Import Py.
Import ListNotations.
Open Scope Z_scope.

(* the last column of the command tables *)
Inductive doc_type : Set := DocUnit (u : text) | DocString | DocHexString | DocBool | DocBitArray | DocFuelStatus | DocAirStatus | DocStatus | DocDtc | DocDtcs | DocO2 | DocO2Alt | DocMonitor | DocNothing | DocTodo.
(* a row: mode (None: an adapter command), pid (None: N/A), name, description, response value *)
Record doc_row := mkRow { d_mode : option Z; d_pid : option Z; d_name : text; d_desc : text; d_type : doc_type }.

(* docs/Command Tables.md:7-285 *)
Definition doc_rows : list doc_row := [
  mkRow None None (str "ELM_VERSION") (str "OBD-II adapter version string") (DocString);
  mkRow None None (str "ELM_VOLTAGE") (str "Voltage detected by OBD-II adapter") (DocUnit (str "volt"));
  mkRow (Some 1) (Some 0) (str "PIDS_A") (str "Supported PIDs [01-20]") (DocBitArray);
  mkRow (Some 1) (Some 1) (str "STATUS") (str "Status since DTCs cleared") (DocStatus);
  mkRow (Some 1) (Some 2) (str "FREEZE_DTC") (str "DTC that triggered the freeze frame") (DocDtc);
  mkRow (Some 1) (Some 3) (str "FUEL_STATUS") (str "Fuel System Status") (DocFuelStatus);
  mkRow (Some 1) (Some 4) (str "ENGINE_LOAD") (str "Calculated Engine Load") (DocUnit (str "percent"));
  mkRow (Some 1) (Some 5) (str "COOLANT_TEMP") (str "Engine Coolant Temperature") (DocUnit (str "celsius"));
  mkRow (Some 1) (Some 6) (str "SHORT_FUEL_TRIM_1") (str "Short Term Fuel Trim - Bank 1") (DocUnit (str "percent"));
  mkRow (Some 1) (Some 7) (str "LONG_FUEL_TRIM_1") (str "Long Term Fuel Trim - Bank 1") (DocUnit (str "percent"));
  mkRow (Some 1) (Some 8) (str "SHORT_FUEL_TRIM_2") (str "Short Term Fuel Trim - Bank 2") (DocUnit (str "percent"));
  mkRow (Some 1) (Some 9) (str "LONG_FUEL_TRIM_2") (str "Long Term Fuel Trim - Bank 2") (DocUnit (str "percent"));
  mkRow (Some 1) (Some 10) (str "FUEL_PRESSURE") (str "Fuel Pressure") (DocUnit (str "kilopascal"));
  mkRow (Some 1) (Some 11) (str "INTAKE_PRESSURE") (str "Intake Manifold Pressure") (DocUnit (str "kilopascal"));
  mkRow (Some 1) (Some 12) (str "RPM") (str "Engine RPM") (DocUnit (str "rpm"));
  mkRow (Some 1) (Some 13) (str "SPEED") (str "Vehicle Speed") (DocUnit (str "kph"));
  mkRow (Some 1) (Some 14) (str "TIMING_ADVANCE") (str "Timing Advance") (DocUnit (str "degree"));
  mkRow (Some 1) (Some 15) (str "INTAKE_TEMP") (str "Intake Air Temp") (DocUnit (str "celsius"));
  mkRow (Some 1) (Some 16) (str "MAF") (str "Air Flow Rate (MAF)") (DocUnit (str "grams_per_second"));
  mkRow (Some 1) (Some 17) (str "THROTTLE_POS") (str "Throttle Position") (DocUnit (str "percent"));
  mkRow (Some 1) (Some 18) (str "AIR_STATUS") (str "Secondary Air Status") (DocAirStatus);
  mkRow (Some 1) (Some 19) (str "O2_SENSORS") (str "O2 Sensors Present") (DocO2);
  mkRow (Some 1) (Some 20) (str "O2_B1S1") (str "O2: Bank 1 - Sensor 1 Voltage") (DocUnit (str "volt"));
  mkRow (Some 1) (Some 21) (str "O2_B1S2") (str "O2: Bank 1 - Sensor 2 Voltage") (DocUnit (str "volt"));
  mkRow (Some 1) (Some 22) (str "O2_B1S3") (str "O2: Bank 1 - Sensor 3 Voltage") (DocUnit (str "volt"));
  mkRow (Some 1) (Some 23) (str "O2_B1S4") (str "O2: Bank 1 - Sensor 4 Voltage") (DocUnit (str "volt"));
  mkRow (Some 1) (Some 24) (str "O2_B2S1") (str "O2: Bank 2 - Sensor 1 Voltage") (DocUnit (str "volt"));
  mkRow (Some 1) (Some 25) (str "O2_B2S2") (str "O2: Bank 2 - Sensor 2 Voltage") (DocUnit (str "volt"));
  mkRow (Some 1) (Some 26) (str "O2_B2S3") (str "O2: Bank 2 - Sensor 3 Voltage") (DocUnit (str "volt"));
  mkRow (Some 1) (Some 27) (str "O2_B2S4") (str "O2: Bank 2 - Sensor 4 Voltage") (DocUnit (str "volt"));
  mkRow (Some 1) (Some 28) (str "OBD_COMPLIANCE") (str "OBD Standards Compliance") (DocString);
  mkRow (Some 1) (Some 29) (str "O2_SENSORS_ALT") (str "O2 Sensors Present (alternate)") (DocO2Alt);
  mkRow (Some 1) (Some 30) (str "AUX_INPUT_STATUS") (str "Auxiliary input status (power take off)") (DocBool);
  mkRow (Some 1) (Some 31) (str "RUN_TIME") (str "Engine Run Time") (DocUnit (str "second"));
  mkRow (Some 1) (Some 32) (str "PIDS_B") (str "Supported PIDs [21-40]") (DocBitArray);
  mkRow (Some 1) (Some 33) (str "DISTANCE_W_MIL") (str "Distance Traveled with MIL on") (DocUnit (str "kilometer"));
  mkRow (Some 1) (Some 34) (str "FUEL_RAIL_PRESSURE_VAC") (str "Fuel Rail Pressure (relative to vacuum)") (DocUnit (str "kilopascal"));
  mkRow (Some 1) (Some 35) (str "FUEL_RAIL_PRESSURE_DIRECT") (str "Fuel Rail Pressure (direct inject)") (DocUnit (str "kilopascal"));
  mkRow (Some 1) (Some 36) (str "O2_S1_WR_VOLTAGE") (str "02 Sensor 1 WR Lambda Voltage") (DocUnit (str "volt"));
  mkRow (Some 1) (Some 37) (str "O2_S2_WR_VOLTAGE") (str "02 Sensor 2 WR Lambda Voltage") (DocUnit (str "volt"));
  mkRow (Some 1) (Some 38) (str "O2_S3_WR_VOLTAGE") (str "02 Sensor 3 WR Lambda Voltage") (DocUnit (str "volt"));
  mkRow (Some 1) (Some 39) (str "O2_S4_WR_VOLTAGE") (str "02 Sensor 4 WR Lambda Voltage") (DocUnit (str "volt"));
  mkRow (Some 1) (Some 40) (str "O2_S5_WR_VOLTAGE") (str "02 Sensor 5 WR Lambda Voltage") (DocUnit (str "volt"));
  mkRow (Some 1) (Some 41) (str "O2_S6_WR_VOLTAGE") (str "02 Sensor 6 WR Lambda Voltage") (DocUnit (str "volt"));
  mkRow (Some 1) (Some 42) (str "O2_S7_WR_VOLTAGE") (str "02 Sensor 7 WR Lambda Voltage") (DocUnit (str "volt"));
  mkRow (Some 1) (Some 43) (str "O2_S8_WR_VOLTAGE") (str "02 Sensor 8 WR Lambda Voltage") (DocUnit (str "volt"));
  mkRow (Some 1) (Some 44) (str "COMMANDED_EGR") (str "Commanded EGR") (DocUnit (str "percent"));
  mkRow (Some 1) (Some 45) (str "EGR_ERROR") (str "EGR Error") (DocUnit (str "percent"));
  mkRow (Some 1) (Some 46) (str "EVAPORATIVE_PURGE") (str "Commanded Evaporative Purge") (DocUnit (str "percent"));
  mkRow (Some 1) (Some 47) (str "FUEL_LEVEL") (str "Fuel Level Input") (DocUnit (str "percent"));
  mkRow (Some 1) (Some 48) (str "WARMUPS_SINCE_DTC_CLEAR") (str "Number of warm-ups since codes cleared") (DocUnit (str "count"));
  mkRow (Some 1) (Some 49) (str "DISTANCE_SINCE_DTC_CLEAR") (str "Distance traveled since codes cleared") (DocUnit (str "kilometer"));
  mkRow (Some 1) (Some 50) (str "EVAP_VAPOR_PRESSURE") (str "Evaporative system vapor pressure") (DocUnit (str "pascal"));
  mkRow (Some 1) (Some 51) (str "BAROMETRIC_PRESSURE") (str "Barometric Pressure") (DocUnit (str "kilopascal"));
  mkRow (Some 1) (Some 52) (str "O2_S1_WR_CURRENT") (str "02 Sensor 1 WR Lambda Current") (DocUnit (str "milliampere"));
  mkRow (Some 1) (Some 53) (str "O2_S2_WR_CURRENT") (str "02 Sensor 2 WR Lambda Current") (DocUnit (str "milliampere"));
  mkRow (Some 1) (Some 54) (str "O2_S3_WR_CURRENT") (str "02 Sensor 3 WR Lambda Current") (DocUnit (str "milliampere"));
  mkRow (Some 1) (Some 55) (str "O2_S4_WR_CURRENT") (str "02 Sensor 4 WR Lambda Current") (DocUnit (str "milliampere"));
  mkRow (Some 1) (Some 56) (str "O2_S5_WR_CURRENT") (str "02 Sensor 5 WR Lambda Current") (DocUnit (str "milliampere"));
  mkRow (Some 1) (Some 57) (str "O2_S6_WR_CURRENT") (str "02 Sensor 6 WR Lambda Current") (DocUnit (str "milliampere"));
  mkRow (Some 1) (Some 58) (str "O2_S7_WR_CURRENT") (str "02 Sensor 7 WR Lambda Current") (DocUnit (str "milliampere"));
  mkRow (Some 1) (Some 59) (str "O2_S8_WR_CURRENT") (str "02 Sensor 8 WR Lambda Current") (DocUnit (str "milliampere"));
  mkRow (Some 1) (Some 60) (str "CATALYST_TEMP_B1S1") (str "Catalyst Temperature: Bank 1 - Sensor 1") (DocUnit (str "celsius"));
  mkRow (Some 1) (Some 61) (str "CATALYST_TEMP_B2S1") (str "Catalyst Temperature: Bank 2 - Sensor 1") (DocUnit (str "celsius"));
  mkRow (Some 1) (Some 62) (str "CATALYST_TEMP_B1S2") (str "Catalyst Temperature: Bank 1 - Sensor 2") (DocUnit (str "celsius"));
  mkRow (Some 1) (Some 63) (str "CATALYST_TEMP_B2S2") (str "Catalyst Temperature: Bank 2 - Sensor 2") (DocUnit (str "celsius"));
  mkRow (Some 1) (Some 64) (str "PIDS_C") (str "Supported PIDs [41-60]") (DocBitArray);
  mkRow (Some 1) (Some 65) (str "STATUS_DRIVE_CYCLE") (str "Monitor status this drive cycle") (DocStatus);
  mkRow (Some 1) (Some 66) (str "CONTROL_MODULE_VOLTAGE") (str "Control module voltage") (DocUnit (str "volt"));
  mkRow (Some 1) (Some 67) (str "ABSOLUTE_LOAD") (str "Absolute load value") (DocUnit (str "percent"));
  mkRow (Some 1) (Some 68) (str "COMMANDED_EQUIV_RATIO") (str "Commanded equivalence ratio") (DocUnit (str "ratio"));
  mkRow (Some 1) (Some 69) (str "RELATIVE_THROTTLE_POS") (str "Relative throttle position") (DocUnit (str "percent"));
  mkRow (Some 1) (Some 70) (str "AMBIANT_AIR_TEMP") (str "Ambient air temperature") (DocUnit (str "celsius"));
  mkRow (Some 1) (Some 71) (str "THROTTLE_POS_B") (str "Absolute throttle position B") (DocUnit (str "percent"));
  mkRow (Some 1) (Some 72) (str "THROTTLE_POS_C") (str "Absolute throttle position C") (DocUnit (str "percent"));
  mkRow (Some 1) (Some 73) (str "ACCELERATOR_POS_D") (str "Accelerator pedal position D") (DocUnit (str "percent"));
  mkRow (Some 1) (Some 74) (str "ACCELERATOR_POS_E") (str "Accelerator pedal position E") (DocUnit (str "percent"));
  mkRow (Some 1) (Some 75) (str "ACCELERATOR_POS_F") (str "Accelerator pedal position F") (DocUnit (str "percent"));
  mkRow (Some 1) (Some 76) (str "THROTTLE_ACTUATOR") (str "Commanded throttle actuator") (DocUnit (str "percent"));
  mkRow (Some 1) (Some 77) (str "RUN_TIME_MIL") (str "Time run with MIL on") (DocUnit (str "minute"));
  mkRow (Some 1) (Some 78) (str "TIME_SINCE_DTC_CLEARED") (str "Time since trouble codes cleared") (DocUnit (str "minute"));
  mkRow (Some 1) (Some 80) (str "MAX_MAF") (str "Maximum value for mass air flow sensor") (DocUnit (str "grams_per_second"));
  mkRow (Some 1) (Some 81) (str "FUEL_TYPE") (str "Fuel Type") (DocString);
  mkRow (Some 1) (Some 82) (str "ETHANOL_PERCENT") (str "Ethanol Fuel Percent") (DocUnit (str "percent"));
  mkRow (Some 1) (Some 83) (str "EVAP_VAPOR_PRESSURE_ABS") (str "Absolute Evap system Vapor Pressure") (DocUnit (str "kilopascal"));
  mkRow (Some 1) (Some 84) (str "EVAP_VAPOR_PRESSURE_ALT") (str "Evap system vapor pressure") (DocUnit (str "pascal"));
  mkRow (Some 1) (Some 85) (str "SHORT_O2_TRIM_B1") (str "Short term secondary O2 trim - Bank 1") (DocUnit (str "percent"));
  mkRow (Some 1) (Some 86) (str "LONG_O2_TRIM_B1") (str "Long term secondary O2 trim - Bank 1") (DocUnit (str "percent"));
  mkRow (Some 1) (Some 87) (str "SHORT_O2_TRIM_B2") (str "Short term secondary O2 trim - Bank 2") (DocUnit (str "percent"));
  mkRow (Some 1) (Some 88) (str "LONG_O2_TRIM_B2") (str "Long term secondary O2 trim - Bank 2") (DocUnit (str "percent"));
  mkRow (Some 1) (Some 89) (str "FUEL_RAIL_PRESSURE_ABS") (str "Fuel rail pressure (absolute)") (DocUnit (str "kilopascal"));
  mkRow (Some 1) (Some 90) (str "RELATIVE_ACCEL_POS") (str "Relative accelerator pedal position") (DocUnit (str "percent"));
  mkRow (Some 1) (Some 91) (str "HYBRID_BATTERY_REMAINING") (str "Hybrid battery pack remaining life") (DocUnit (str "percent"));
  mkRow (Some 1) (Some 92) (str "OIL_TEMP") (str "Engine oil temperature") (DocUnit (str "celsius"));
  mkRow (Some 1) (Some 93) (str "FUEL_INJECT_TIMING") (str "Fuel injection timing") (DocUnit (str "degree"));
  mkRow (Some 1) (Some 94) (str "FUEL_RATE") (str "Engine fuel rate") (DocUnit (str "liters_per_hour"));
  mkRow (Some 3) None (str "GET_DTC") (str "Get Diagnostic Trouble Codes") (DocDtcs);
  mkRow (Some 4) None (str "CLEAR_DTC") (str "Clear DTCs and Freeze data") (DocNothing);
  mkRow (Some 6) (Some 0) (str "MIDS_A") (str "Supported MIDs [01-20]") (DocBitArray);
  mkRow (Some 6) (Some 1) (str "MONITOR_O2_B1S1") (str "O2 Sensor Monitor Bank 1 - Sensor 1") (DocMonitor);
  mkRow (Some 6) (Some 2) (str "MONITOR_O2_B1S2") (str "O2 Sensor Monitor Bank 1 - Sensor 2") (DocMonitor);
  mkRow (Some 6) (Some 3) (str "MONITOR_O2_B1S3") (str "O2 Sensor Monitor Bank 1 - Sensor 3") (DocMonitor);
  mkRow (Some 6) (Some 4) (str "MONITOR_O2_B1S4") (str "O2 Sensor Monitor Bank 1 - Sensor 4") (DocMonitor);
  mkRow (Some 6) (Some 5) (str "MONITOR_O2_B2S1") (str "O2 Sensor Monitor Bank 2 - Sensor 1") (DocMonitor);
  mkRow (Some 6) (Some 6) (str "MONITOR_O2_B2S2") (str "O2 Sensor Monitor Bank 2 - Sensor 2") (DocMonitor);
  mkRow (Some 6) (Some 7) (str "MONITOR_O2_B2S3") (str "O2 Sensor Monitor Bank 2 - Sensor 3") (DocMonitor);
  mkRow (Some 6) (Some 8) (str "MONITOR_O2_B2S4") (str "O2 Sensor Monitor Bank 2 - Sensor 4") (DocMonitor);
  mkRow (Some 6) (Some 9) (str "MONITOR_O2_B3S1") (str "O2 Sensor Monitor Bank 3 - Sensor 1") (DocMonitor);
  mkRow (Some 6) (Some 10) (str "MONITOR_O2_B3S2") (str "O2 Sensor Monitor Bank 3 - Sensor 2") (DocMonitor);
  mkRow (Some 6) (Some 11) (str "MONITOR_O2_B3S3") (str "O2 Sensor Monitor Bank 3 - Sensor 3") (DocMonitor);
  mkRow (Some 6) (Some 12) (str "MONITOR_O2_B3S4") (str "O2 Sensor Monitor Bank 3 - Sensor 4") (DocMonitor);
  mkRow (Some 6) (Some 13) (str "MONITOR_O2_B4S1") (str "O2 Sensor Monitor Bank 4 - Sensor 1") (DocMonitor);
  mkRow (Some 6) (Some 14) (str "MONITOR_O2_B4S2") (str "O2 Sensor Monitor Bank 4 - Sensor 2") (DocMonitor);
  mkRow (Some 6) (Some 15) (str "MONITOR_O2_B4S3") (str "O2 Sensor Monitor Bank 4 - Sensor 3") (DocMonitor);
  mkRow (Some 6) (Some 16) (str "MONITOR_O2_B4S4") (str "O2 Sensor Monitor Bank 4 - Sensor 4") (DocMonitor);
  mkRow (Some 6) (Some 32) (str "MIDS_B") (str "Supported MIDs [21-40]") (DocBitArray);
  mkRow (Some 6) (Some 33) (str "MONITOR_CATALYST_B1") (str "Catalyst Monitor Bank 1") (DocMonitor);
  mkRow (Some 6) (Some 34) (str "MONITOR_CATALYST_B2") (str "Catalyst Monitor Bank 2") (DocMonitor);
  mkRow (Some 6) (Some 35) (str "MONITOR_CATALYST_B3") (str "Catalyst Monitor Bank 3") (DocMonitor);
  mkRow (Some 6) (Some 36) (str "MONITOR_CATALYST_B4") (str "Catalyst Monitor Bank 4") (DocMonitor);
  mkRow (Some 6) (Some 49) (str "MONITOR_EGR_B1") (str "EGR Monitor Bank 1") (DocMonitor);
  mkRow (Some 6) (Some 50) (str "MONITOR_EGR_B2") (str "EGR Monitor Bank 2") (DocMonitor);
  mkRow (Some 6) (Some 51) (str "MONITOR_EGR_B3") (str "EGR Monitor Bank 3") (DocMonitor);
  mkRow (Some 6) (Some 52) (str "MONITOR_EGR_B4") (str "EGR Monitor Bank 4") (DocMonitor);
  mkRow (Some 6) (Some 53) (str "MONITOR_VVT_B1") (str "VVT Monitor Bank 1") (DocMonitor);
  mkRow (Some 6) (Some 54) (str "MONITOR_VVT_B2") (str "VVT Monitor Bank 2") (DocMonitor);
  mkRow (Some 6) (Some 55) (str "MONITOR_VVT_B3") (str "VVT Monitor Bank 3") (DocMonitor);
  mkRow (Some 6) (Some 56) (str "MONITOR_VVT_B4") (str "VVT Monitor Bank 4") (DocMonitor);
  mkRow (Some 6) (Some 57) (str "MONITOR_EVAP_150") (str "EVAP Monitor (Cap Off / 0.150"")") (DocMonitor);
  mkRow (Some 6) (Some 58) (str "MONITOR_EVAP_090") (str "EVAP Monitor (0.090"")") (DocMonitor);
  mkRow (Some 6) (Some 59) (str "MONITOR_EVAP_040") (str "EVAP Monitor (0.040"")") (DocMonitor);
  mkRow (Some 6) (Some 60) (str "MONITOR_EVAP_020") (str "EVAP Monitor (0.020"")") (DocMonitor);
  mkRow (Some 6) (Some 61) (str "MONITOR_PURGE_FLOW") (str "Purge Flow Monitor") (DocMonitor);
  mkRow (Some 6) (Some 64) (str "MIDS_C") (str "Supported MIDs [41-60]") (DocBitArray);
  mkRow (Some 6) (Some 65) (str "MONITOR_O2_HEATER_B1S1") (str "O2 Sensor Heater Monitor Bank 1 - Sensor 1") (DocMonitor);
  mkRow (Some 6) (Some 66) (str "MONITOR_O2_HEATER_B1S2") (str "O2 Sensor Heater Monitor Bank 1 - Sensor 2") (DocMonitor);
  mkRow (Some 6) (Some 67) (str "MONITOR_O2_HEATER_B1S3") (str "O2 Sensor Heater Monitor Bank 1 - Sensor 3") (DocMonitor);
  mkRow (Some 6) (Some 68) (str "MONITOR_O2_HEATER_B1S4") (str "O2 Sensor Heater Monitor Bank 1 - Sensor 4") (DocMonitor);
  mkRow (Some 6) (Some 69) (str "MONITOR_O2_HEATER_B2S1") (str "O2 Sensor Heater Monitor Bank 2 - Sensor 1") (DocMonitor);
  mkRow (Some 6) (Some 70) (str "MONITOR_O2_HEATER_B2S2") (str "O2 Sensor Heater Monitor Bank 2 - Sensor 2") (DocMonitor);
  mkRow (Some 6) (Some 71) (str "MONITOR_O2_HEATER_B2S3") (str "O2 Sensor Heater Monitor Bank 2 - Sensor 3") (DocMonitor);
  mkRow (Some 6) (Some 72) (str "MONITOR_O2_HEATER_B2S4") (str "O2 Sensor Heater Monitor Bank 2 - Sensor 4") (DocMonitor);
  mkRow (Some 6) (Some 73) (str "MONITOR_O2_HEATER_B3S1") (str "O2 Sensor Heater Monitor Bank 3 - Sensor 1") (DocMonitor);
  mkRow (Some 6) (Some 74) (str "MONITOR_O2_HEATER_B3S2") (str "O2 Sensor Heater Monitor Bank 3 - Sensor 2") (DocMonitor);
  mkRow (Some 6) (Some 75) (str "MONITOR_O2_HEATER_B3S3") (str "O2 Sensor Heater Monitor Bank 3 - Sensor 3") (DocMonitor);
  mkRow (Some 6) (Some 76) (str "MONITOR_O2_HEATER_B3S4") (str "O2 Sensor Heater Monitor Bank 3 - Sensor 4") (DocMonitor);
  mkRow (Some 6) (Some 77) (str "MONITOR_O2_HEATER_B4S1") (str "O2 Sensor Heater Monitor Bank 4 - Sensor 1") (DocMonitor);
  mkRow (Some 6) (Some 78) (str "MONITOR_O2_HEATER_B4S2") (str "O2 Sensor Heater Monitor Bank 4 - Sensor 2") (DocMonitor);
  mkRow (Some 6) (Some 79) (str "MONITOR_O2_HEATER_B4S3") (str "O2 Sensor Heater Monitor Bank 4 - Sensor 3") (DocMonitor);
  mkRow (Some 6) (Some 80) (str "MONITOR_O2_HEATER_B4S4") (str "O2 Sensor Heater Monitor Bank 4 - Sensor 4") (DocMonitor);
  mkRow (Some 6) (Some 96) (str "MIDS_D") (str "Supported MIDs [61-80]") (DocBitArray);
  mkRow (Some 6) (Some 97) (str "MONITOR_HEATED_CATALYST_B1") (str "Heated Catalyst Monitor Bank 1") (DocMonitor);
  mkRow (Some 6) (Some 98) (str "MONITOR_HEATED_CATALYST_B2") (str "Heated Catalyst Monitor Bank 2") (DocMonitor);
  mkRow (Some 6) (Some 99) (str "MONITOR_HEATED_CATALYST_B3") (str "Heated Catalyst Monitor Bank 3") (DocMonitor);
  mkRow (Some 6) (Some 100) (str "MONITOR_HEATED_CATALYST_B4") (str "Heated Catalyst Monitor Bank 4") (DocMonitor);
  mkRow (Some 6) (Some 113) (str "MONITOR_SECONDARY_AIR_1") (str "Secondary Air Monitor 1") (DocMonitor);
  mkRow (Some 6) (Some 114) (str "MONITOR_SECONDARY_AIR_2") (str "Secondary Air Monitor 2") (DocMonitor);
  mkRow (Some 6) (Some 115) (str "MONITOR_SECONDARY_AIR_3") (str "Secondary Air Monitor 3") (DocMonitor);
  mkRow (Some 6) (Some 116) (str "MONITOR_SECONDARY_AIR_4") (str "Secondary Air Monitor 4") (DocMonitor);
  mkRow (Some 6) (Some 128) (str "MIDS_E") (str "Supported MIDs [81-A0]") (DocBitArray);
  mkRow (Some 6) (Some 129) (str "MONITOR_FUEL_SYSTEM_B1") (str "Fuel System Monitor Bank 1") (DocMonitor);
  mkRow (Some 6) (Some 130) (str "MONITOR_FUEL_SYSTEM_B2") (str "Fuel System Monitor Bank 2") (DocMonitor);
  mkRow (Some 6) (Some 131) (str "MONITOR_FUEL_SYSTEM_B3") (str "Fuel System Monitor Bank 3") (DocMonitor);
  mkRow (Some 6) (Some 132) (str "MONITOR_FUEL_SYSTEM_B4") (str "Fuel System Monitor Bank 4") (DocMonitor);
  mkRow (Some 6) (Some 133) (str "MONITOR_BOOST_PRESSURE_B1") (str "Boost Pressure Control Monitor Bank 1") (DocMonitor);
  mkRow (Some 6) (Some 134) (str "MONITOR_BOOST_PRESSURE_B2") (str "Boost Pressure Control Monitor Bank 1") (DocMonitor);
  mkRow (Some 6) (Some 144) (str "MONITOR_NOX_ABSORBER_B1") (str "NOx Absorber Monitor Bank 1") (DocMonitor);
  mkRow (Some 6) (Some 145) (str "MONITOR_NOX_ABSORBER_B2") (str "NOx Absorber Monitor Bank 2") (DocMonitor);
  mkRow (Some 6) (Some 152) (str "MONITOR_NOX_CATALYST_B1") (str "NOx Catalyst Monitor Bank 1") (DocMonitor);
  mkRow (Some 6) (Some 153) (str "MONITOR_NOX_CATALYST_B2") (str "NOx Catalyst Monitor Bank 2") (DocMonitor);
  mkRow (Some 6) (Some 160) (str "MIDS_F") (str "Supported MIDs [A1-C0]") (DocBitArray);
  mkRow (Some 6) (Some 161) (str "MONITOR_MISFIRE_GENERAL") (str "Misfire Monitor General Data") (DocMonitor);
  mkRow (Some 6) (Some 162) (str "MONITOR_MISFIRE_CYLINDER_1") (str "Misfire Cylinder 1 Data") (DocMonitor);
  mkRow (Some 6) (Some 163) (str "MONITOR_MISFIRE_CYLINDER_2") (str "Misfire Cylinder 2 Data") (DocMonitor);
  mkRow (Some 6) (Some 164) (str "MONITOR_MISFIRE_CYLINDER_3") (str "Misfire Cylinder 3 Data") (DocMonitor);
  mkRow (Some 6) (Some 165) (str "MONITOR_MISFIRE_CYLINDER_4") (str "Misfire Cylinder 4 Data") (DocMonitor);
  mkRow (Some 6) (Some 166) (str "MONITOR_MISFIRE_CYLINDER_5") (str "Misfire Cylinder 5 Data") (DocMonitor);
  mkRow (Some 6) (Some 167) (str "MONITOR_MISFIRE_CYLINDER_6") (str "Misfire Cylinder 6 Data") (DocMonitor);
  mkRow (Some 6) (Some 168) (str "MONITOR_MISFIRE_CYLINDER_7") (str "Misfire Cylinder 7 Data") (DocMonitor);
  mkRow (Some 6) (Some 169) (str "MONITOR_MISFIRE_CYLINDER_8") (str "Misfire Cylinder 8 Data") (DocMonitor);
  mkRow (Some 6) (Some 170) (str "MONITOR_MISFIRE_CYLINDER_9") (str "Misfire Cylinder 9 Data") (DocMonitor);
  mkRow (Some 6) (Some 171) (str "MONITOR_MISFIRE_CYLINDER_10") (str "Misfire Cylinder 10 Data") (DocMonitor);
  mkRow (Some 6) (Some 172) (str "MONITOR_MISFIRE_CYLINDER_11") (str "Misfire Cylinder 11 Data") (DocMonitor);
  mkRow (Some 6) (Some 173) (str "MONITOR_MISFIRE_CYLINDER_12") (str "Misfire Cylinder 12 Data") (DocMonitor);
  mkRow (Some 6) (Some 176) (str "MONITOR_PM_FILTER_B1") (str "PM Filter Monitor Bank 1") (DocMonitor);
  mkRow (Some 6) (Some 177) (str "MONITOR_PM_FILTER_B2") (str "PM Filter Monitor Bank 2") (DocMonitor);
  mkRow (Some 7) None (str "GET_CURRENT_DTC") (str "Get DTCs from the current/last driving cycle") (DocDtcs);
  mkRow (Some 9) (Some 0) (str "PIDS_9A") (str "Supported PIDs [01-20]") (DocBitArray);
  mkRow (Some 9) (Some 1) (str "VIN_MESSAGE_COUNT") (str "VIN Message Count") (DocUnit (str "count"));
  mkRow (Some 9) (Some 2) (str "VIN") (str "Vehicle Identification Number") (DocString);
  mkRow (Some 9) (Some 3) (str "CALIBRATION_ID_MESSAGE_COUNT") (str "Calibration ID message count for PID 04") (DocUnit (str "count"));
  mkRow (Some 9) (Some 4) (str "CALIBRATION_ID") (str "Calibration ID") (DocString);
  mkRow (Some 9) (Some 5) (str "CVN_MESSAGE_COUNT") (str "CVN Message Count for PID 06") (DocUnit (str "count"));
  mkRow (Some 9) (Some 6) (str "CVN") (str "Calibration Verification Numbers") (DocHexString);
  mkRow (Some 9) (Some 7) (str "PERF_TRACKING_MESSAGE_COUNT") (str "Performance tracking message count") (DocTodo);
  mkRow (Some 9) (Some 8) (str "PERF_TRACKING_SPARK") (str "In-use performance tracking (spark ignition)") (DocTodo);
  mkRow (Some 9) (Some 9) (str "ECU_NAME_MESSAGE_COUNT") (str "ECU Name Message Count for PID 0A") (DocTodo);
  mkRow (Some 9) (Some 10) (str "ECU_NAME") (str "ECU Name") (DocTodo);
  mkRow (Some 9) (Some 11) (str "PERF_TRACKING_COMPRESSION") (str "In-use performance tracking (compression ignition)") (DocTodo)
].

(* docs/Responses.md:95-111 *)
Definition doc_tests : list text := [
  (str "MISFIRE_MONITORING");
  (str "FUEL_SYSTEM_MONITORING");
  (str "COMPONENT_MONITORING");
  (str "CATALYST_MONITORING");
  (str "HEATED_CATALYST_MONITORING");
  (str "EVAPORATIVE_SYSTEM_MONITORING");
  (str "SECONDARY_AIR_SYSTEM_MONITORING");
  (str "OXYGEN_SENSOR_MONITORING");
  (str "OXYGEN_SENSOR_HEATER_MONITORING");
  (str "EGR_VVT_SYSTEM_MONITORING");
  (str "NMHC_CATALYST_MONITORING");
  (str "NOX_SCR_AFTERTREATMENT_MONITORING");
  (str "BOOST_PRESSURE_MONITORING");
  (str "EXHAUST_GAS_SENSOR_MONITORING");
  (str "PM_FILTER_MONITORING")
].

(* docs/Responses.md:138-145 *)
Definition doc_fuel_status : list text := [
  (str "");
  (str "Open loop due to insufficient engine temperature");
  (str "Closed loop, using oxygen sensor feedback to determine fuel mix");
  (str "Open loop due to engine load OR fuel cut due to deceleration");
  (str "Open loop due to system failure");
  (str "Closed loop, using at least one oxygen sensor but there is a fault in the feedback system")
].

(* docs/Responses.md:153-158 *)
Definition doc_air_status : list text := [
  (str "Upstream");
  (str "Downstream of catalytic converter");
  (str "From the outside atmosphere or off");
  (str "Pump commanded on for diagnostics")
].

(* docs/Responses.md:192-205 *)
Definition doc_tids : list (Z * (text * text)) := [
  (1, ((str "RTL_THRESHOLD_VOLTAGE"), (str "Rich to lean sensor threshold voltage")));
  (2, ((str "LTR_THRESHOLD_VOLTAGE"), (str "Lean to rich sensor threshold voltage")));
  (3, ((str "LOW_VOLTAGE_SWITCH_TIME"), (str "Low sensor voltage for switch time calculation")));
  (4, ((str "HIGH_VOLTAGE_SWITCH_TIME"), (str "High sensor voltage for switch time calculation")));
  (5, ((str "RTL_SWITCH_TIME"), (str "Rich to lean sensor switch time")));
  (6, ((str "LTR_SWITCH_TIME"), (str "Lean to rich sensor switch time")));
  (7, ((str "MIN_VOLTAGE"), (str "Minimum sensor voltage for test cycle")));
  (8, ((str "MAX_VOLTAGE"), (str "Maximum sensor voltage for test cycle")));
  (9, ((str "TRANSITION_TIME"), (str "Time between sensor transitions")));
  (10, ((str "SENSOR_PERIOD"), (str "Sensor period")));
  (11, ((str "MISFIRE_AVERAGE"), (str "Average misfire counts for last ten driving cycles")));
  (12, ((str "MISFIRE_COUNT"), (str "Misfire counts for last/current driving cycles")))
].
