(* Generated by tools/gen_tables.py from obd/commands.py. No proofs. *)
From Coq Require Import ZArith List.
From Verif Require Import Py Protocol Decoders Command.
Import ListNotations.
Open Scope Z_scope.

(* commands.py:51-153  __mode1__; None marks a reserved PID *)
Definition mode1 : list (option command) :=
[
  Some (mkCommand (str "PIDS_A") (str "Supported PIDs [01-20]") (str "0100") 6 D_pid ECU_ENGINE true ECU_HEADER_ENGINE);
  Some (mkCommand (str "STATUS") (str "Status since DTCs cleared") (str "0101") 6 D_status ECU_ENGINE true ECU_HEADER_ENGINE);
  Some (mkCommand (str "FREEZE_DTC") (str "DTC that triggered the freeze frame") (str "0102") 4 D_single_dtc ECU_ENGINE true ECU_HEADER_ENGINE);
  Some (mkCommand (str "FUEL_STATUS") (str "Fuel System Status") (str "0103") 4 D_fuel_status ECU_ENGINE true ECU_HEADER_ENGINE);
  Some (mkCommand (str "ENGINE_LOAD") (str "Calculated Engine Load") (str "0104") 3 D_percent ECU_ENGINE true ECU_HEADER_ENGINE);
  Some (mkCommand (str "COOLANT_TEMP") (str "Engine Coolant Temperature") (str "0105") 3 D_temp ECU_ENGINE true ECU_HEADER_ENGINE);
  Some (mkCommand (str "SHORT_FUEL_TRIM_1") (str "Short Term Fuel Trim - Bank 1") (str "0106") 3 D_percent_centered ECU_ENGINE true ECU_HEADER_ENGINE);
  Some (mkCommand (str "LONG_FUEL_TRIM_1") (str "Long Term Fuel Trim - Bank 1") (str "0107") 3 D_percent_centered ECU_ENGINE true ECU_HEADER_ENGINE);
  Some (mkCommand (str "SHORT_FUEL_TRIM_2") (str "Short Term Fuel Trim - Bank 2") (str "0108") 3 D_percent_centered ECU_ENGINE true ECU_HEADER_ENGINE);
  Some (mkCommand (str "LONG_FUEL_TRIM_2") (str "Long Term Fuel Trim - Bank 2") (str "0109") 3 D_percent_centered ECU_ENGINE true ECU_HEADER_ENGINE);
  Some (mkCommand (str "FUEL_PRESSURE") (str "Fuel Pressure") (str "010A") 3 D_fuel_pressure ECU_ENGINE true ECU_HEADER_ENGINE);
  Some (mkCommand (str "INTAKE_PRESSURE") (str "Intake Manifold Pressure") (str "010B") 3 D_pressure ECU_ENGINE true ECU_HEADER_ENGINE);
  Some (mkCommand (str "RPM") (str "Engine RPM") (str "010C") 4 (D_uas 7) ECU_ENGINE true ECU_HEADER_ENGINE);
  Some (mkCommand (str "SPEED") (str "Vehicle Speed") (str "010D") 3 (D_uas 9) ECU_ENGINE true ECU_HEADER_ENGINE);
  Some (mkCommand (str "TIMING_ADVANCE") (str "Timing Advance") (str "010E") 3 D_timing_advance ECU_ENGINE true ECU_HEADER_ENGINE);
  Some (mkCommand (str "INTAKE_TEMP") (str "Intake Air Temp") (str "010F") 3 D_temp ECU_ENGINE true ECU_HEADER_ENGINE);
  Some (mkCommand (str "MAF") (str "Air Flow Rate (MAF)") (str "0110") 4 (D_uas 39) ECU_ENGINE true ECU_HEADER_ENGINE);
  Some (mkCommand (str "THROTTLE_POS") (str "Throttle Position") (str "0111") 3 D_percent ECU_ENGINE true ECU_HEADER_ENGINE);
  Some (mkCommand (str "AIR_STATUS") (str "Secondary Air Status") (str "0112") 3 D_air_status ECU_ENGINE true ECU_HEADER_ENGINE);
  Some (mkCommand (str "O2_SENSORS") (str "O2 Sensors Present") (str "0113") 3 D_o2_sensors ECU_ENGINE true ECU_HEADER_ENGINE);
  Some (mkCommand (str "O2_B1S1") (str "O2: Bank 1 - Sensor 1 Voltage") (str "0114") 4 D_sensor_voltage ECU_ENGINE true ECU_HEADER_ENGINE);
  Some (mkCommand (str "O2_B1S2") (str "O2: Bank 1 - Sensor 2 Voltage") (str "0115") 4 D_sensor_voltage ECU_ENGINE true ECU_HEADER_ENGINE);
  Some (mkCommand (str "O2_B1S3") (str "O2: Bank 1 - Sensor 3 Voltage") (str "0116") 4 D_sensor_voltage ECU_ENGINE true ECU_HEADER_ENGINE);
  Some (mkCommand (str "O2_B1S4") (str "O2: Bank 1 - Sensor 4 Voltage") (str "0117") 4 D_sensor_voltage ECU_ENGINE true ECU_HEADER_ENGINE);
  Some (mkCommand (str "O2_B2S1") (str "O2: Bank 2 - Sensor 1 Voltage") (str "0118") 4 D_sensor_voltage ECU_ENGINE true ECU_HEADER_ENGINE);
  Some (mkCommand (str "O2_B2S2") (str "O2: Bank 2 - Sensor 2 Voltage") (str "0119") 4 D_sensor_voltage ECU_ENGINE true ECU_HEADER_ENGINE);
  Some (mkCommand (str "O2_B2S3") (str "O2: Bank 2 - Sensor 3 Voltage") (str "011A") 4 D_sensor_voltage ECU_ENGINE true ECU_HEADER_ENGINE);
  Some (mkCommand (str "O2_B2S4") (str "O2: Bank 2 - Sensor 4 Voltage") (str "011B") 4 D_sensor_voltage ECU_ENGINE true ECU_HEADER_ENGINE);
  Some (mkCommand (str "OBD_COMPLIANCE") (str "OBD Standards Compliance") (str "011C") 3 D_obd_compliance ECU_ENGINE true ECU_HEADER_ENGINE);
  Some (mkCommand (str "O2_SENSORS_ALT") (str "O2 Sensors Present (alternate)") (str "011D") 3 D_o2_sensors_alt ECU_ENGINE true ECU_HEADER_ENGINE);
  Some (mkCommand (str "AUX_INPUT_STATUS") (str "Auxiliary input status (power take off)") (str "011E") 3 D_aux_input_status ECU_ENGINE true ECU_HEADER_ENGINE);
  Some (mkCommand (str "RUN_TIME") (str "Engine Run Time") (str "011F") 4 (D_uas 18) ECU_ENGINE true ECU_HEADER_ENGINE);
  Some (mkCommand (str "PIDS_B") (str "Supported PIDs [21-40]") (str "0120") 6 D_pid ECU_ENGINE true ECU_HEADER_ENGINE);
  Some (mkCommand (str "DISTANCE_W_MIL") (str "Distance Traveled with MIL on") (str "0121") 4 (D_uas 37) ECU_ENGINE true ECU_HEADER_ENGINE);
  Some (mkCommand (str "FUEL_RAIL_PRESSURE_VAC") (str "Fuel Rail Pressure (relative to vacuum)") (str "0122") 4 (D_uas 25) ECU_ENGINE true ECU_HEADER_ENGINE);
  Some (mkCommand (str "FUEL_RAIL_PRESSURE_DIRECT") (str "Fuel Rail Pressure (direct inject)") (str "0123") 4 (D_uas 27) ECU_ENGINE true ECU_HEADER_ENGINE);
  Some (mkCommand (str "O2_S1_WR_VOLTAGE") (str "02 Sensor 1 WR Lambda Voltage") (str "0124") 6 D_sensor_voltage_big ECU_ENGINE true ECU_HEADER_ENGINE);
  Some (mkCommand (str "O2_S2_WR_VOLTAGE") (str "02 Sensor 2 WR Lambda Voltage") (str "0125") 6 D_sensor_voltage_big ECU_ENGINE true ECU_HEADER_ENGINE);
  Some (mkCommand (str "O2_S3_WR_VOLTAGE") (str "02 Sensor 3 WR Lambda Voltage") (str "0126") 6 D_sensor_voltage_big ECU_ENGINE true ECU_HEADER_ENGINE);
  Some (mkCommand (str "O2_S4_WR_VOLTAGE") (str "02 Sensor 4 WR Lambda Voltage") (str "0127") 6 D_sensor_voltage_big ECU_ENGINE true ECU_HEADER_ENGINE);
  Some (mkCommand (str "O2_S5_WR_VOLTAGE") (str "02 Sensor 5 WR Lambda Voltage") (str "0128") 6 D_sensor_voltage_big ECU_ENGINE true ECU_HEADER_ENGINE);
  Some (mkCommand (str "O2_S6_WR_VOLTAGE") (str "02 Sensor 6 WR Lambda Voltage") (str "0129") 6 D_sensor_voltage_big ECU_ENGINE true ECU_HEADER_ENGINE);
  Some (mkCommand (str "O2_S7_WR_VOLTAGE") (str "02 Sensor 7 WR Lambda Voltage") (str "012A") 6 D_sensor_voltage_big ECU_ENGINE true ECU_HEADER_ENGINE);
  Some (mkCommand (str "O2_S8_WR_VOLTAGE") (str "02 Sensor 8 WR Lambda Voltage") (str "012B") 6 D_sensor_voltage_big ECU_ENGINE true ECU_HEADER_ENGINE);
  Some (mkCommand (str "COMMANDED_EGR") (str "Commanded EGR") (str "012C") 3 D_percent ECU_ENGINE true ECU_HEADER_ENGINE);
  Some (mkCommand (str "EGR_ERROR") (str "EGR Error") (str "012D") 3 D_percent_centered ECU_ENGINE true ECU_HEADER_ENGINE);
  Some (mkCommand (str "EVAPORATIVE_PURGE") (str "Commanded Evaporative Purge") (str "012E") 3 D_percent ECU_ENGINE true ECU_HEADER_ENGINE);
  Some (mkCommand (str "FUEL_LEVEL") (str "Fuel Level Input") (str "012F") 3 D_percent ECU_ENGINE true ECU_HEADER_ENGINE);
  Some (mkCommand (str "WARMUPS_SINCE_DTC_CLEAR") (str "Number of warm-ups since codes cleared") (str "0130") 3 (D_uas 1) ECU_ENGINE true ECU_HEADER_ENGINE);
  Some (mkCommand (str "DISTANCE_SINCE_DTC_CLEAR") (str "Distance traveled since codes cleared") (str "0131") 4 (D_uas 37) ECU_ENGINE true ECU_HEADER_ENGINE);
  Some (mkCommand (str "EVAP_VAPOR_PRESSURE") (str "Evaporative system vapor pressure") (str "0132") 4 D_evap_pressure ECU_ENGINE true ECU_HEADER_ENGINE);
  Some (mkCommand (str "BAROMETRIC_PRESSURE") (str "Barometric Pressure") (str "0133") 3 D_pressure ECU_ENGINE true ECU_HEADER_ENGINE);
  Some (mkCommand (str "O2_S1_WR_CURRENT") (str "02 Sensor 1 WR Lambda Current") (str "0134") 6 D_current_centered ECU_ENGINE true ECU_HEADER_ENGINE);
  Some (mkCommand (str "O2_S2_WR_CURRENT") (str "02 Sensor 2 WR Lambda Current") (str "0135") 6 D_current_centered ECU_ENGINE true ECU_HEADER_ENGINE);
  Some (mkCommand (str "O2_S3_WR_CURRENT") (str "02 Sensor 3 WR Lambda Current") (str "0136") 6 D_current_centered ECU_ENGINE true ECU_HEADER_ENGINE);
  Some (mkCommand (str "O2_S4_WR_CURRENT") (str "02 Sensor 4 WR Lambda Current") (str "0137") 6 D_current_centered ECU_ENGINE true ECU_HEADER_ENGINE);
  Some (mkCommand (str "O2_S5_WR_CURRENT") (str "02 Sensor 5 WR Lambda Current") (str "0138") 6 D_current_centered ECU_ENGINE true ECU_HEADER_ENGINE);
  Some (mkCommand (str "O2_S6_WR_CURRENT") (str "02 Sensor 6 WR Lambda Current") (str "0139") 6 D_current_centered ECU_ENGINE true ECU_HEADER_ENGINE);
  Some (mkCommand (str "O2_S7_WR_CURRENT") (str "02 Sensor 7 WR Lambda Current") (str "013A") 6 D_current_centered ECU_ENGINE true ECU_HEADER_ENGINE);
  Some (mkCommand (str "O2_S8_WR_CURRENT") (str "02 Sensor 8 WR Lambda Current") (str "013B") 6 D_current_centered ECU_ENGINE true ECU_HEADER_ENGINE);
  Some (mkCommand (str "CATALYST_TEMP_B1S1") (str "Catalyst Temperature: Bank 1 - Sensor 1") (str "013C") 4 (D_uas 22) ECU_ENGINE true ECU_HEADER_ENGINE);
  Some (mkCommand (str "CATALYST_TEMP_B2S1") (str "Catalyst Temperature: Bank 2 - Sensor 1") (str "013D") 4 (D_uas 22) ECU_ENGINE true ECU_HEADER_ENGINE);
  Some (mkCommand (str "CATALYST_TEMP_B1S2") (str "Catalyst Temperature: Bank 1 - Sensor 2") (str "013E") 4 (D_uas 22) ECU_ENGINE true ECU_HEADER_ENGINE);
  Some (mkCommand (str "CATALYST_TEMP_B2S2") (str "Catalyst Temperature: Bank 2 - Sensor 2") (str "013F") 4 (D_uas 22) ECU_ENGINE true ECU_HEADER_ENGINE);
  Some (mkCommand (str "PIDS_C") (str "Supported PIDs [41-60]") (str "0140") 6 D_pid ECU_ENGINE true ECU_HEADER_ENGINE);
  Some (mkCommand (str "STATUS_DRIVE_CYCLE") (str "Monitor status this drive cycle") (str "0141") 6 D_status ECU_ENGINE true ECU_HEADER_ENGINE);
  Some (mkCommand (str "CONTROL_MODULE_VOLTAGE") (str "Control module voltage") (str "0142") 4 (D_uas 11) ECU_ENGINE true ECU_HEADER_ENGINE);
  Some (mkCommand (str "ABSOLUTE_LOAD") (str "Absolute load value") (str "0143") 4 D_absolute_load ECU_ENGINE true ECU_HEADER_ENGINE);
  Some (mkCommand (str "COMMANDED_EQUIV_RATIO") (str "Commanded equivalence ratio") (str "0144") 4 (D_uas 30) ECU_ENGINE true ECU_HEADER_ENGINE);
  Some (mkCommand (str "RELATIVE_THROTTLE_POS") (str "Relative throttle position") (str "0145") 3 D_percent ECU_ENGINE true ECU_HEADER_ENGINE);
  Some (mkCommand (str "AMBIANT_AIR_TEMP") (str "Ambient air temperature") (str "0146") 3 D_temp ECU_ENGINE true ECU_HEADER_ENGINE);
  Some (mkCommand (str "THROTTLE_POS_B") (str "Absolute throttle position B") (str "0147") 3 D_percent ECU_ENGINE true ECU_HEADER_ENGINE);
  Some (mkCommand (str "THROTTLE_POS_C") (str "Absolute throttle position C") (str "0148") 3 D_percent ECU_ENGINE true ECU_HEADER_ENGINE);
  Some (mkCommand (str "ACCELERATOR_POS_D") (str "Accelerator pedal position D") (str "0149") 3 D_percent ECU_ENGINE true ECU_HEADER_ENGINE);
  Some (mkCommand (str "ACCELERATOR_POS_E") (str "Accelerator pedal position E") (str "014A") 3 D_percent ECU_ENGINE true ECU_HEADER_ENGINE);
  Some (mkCommand (str "ACCELERATOR_POS_F") (str "Accelerator pedal position F") (str "014B") 3 D_percent ECU_ENGINE true ECU_HEADER_ENGINE);
  Some (mkCommand (str "THROTTLE_ACTUATOR") (str "Commanded throttle actuator") (str "014C") 3 D_percent ECU_ENGINE true ECU_HEADER_ENGINE);
  Some (mkCommand (str "RUN_TIME_MIL") (str "Time run with MIL on") (str "014D") 4 (D_uas 52) ECU_ENGINE true ECU_HEADER_ENGINE);
  Some (mkCommand (str "TIME_SINCE_DTC_CLEARED") (str "Time since trouble codes cleared") (str "014E") 4 (D_uas 52) ECU_ENGINE true ECU_HEADER_ENGINE);
  Some (mkCommand (str "MAX_VALUES") (str "Various Max values") (str "014F") 6 D_drop ECU_ENGINE true ECU_HEADER_ENGINE);
  Some (mkCommand (str "MAX_MAF") (str "Maximum value for mass air flow sensor") (str "0150") 6 D_max_maf ECU_ENGINE true ECU_HEADER_ENGINE);
  Some (mkCommand (str "FUEL_TYPE") (str "Fuel Type") (str "0151") 3 D_fuel_type ECU_ENGINE true ECU_HEADER_ENGINE);
  Some (mkCommand (str "ETHANOL_PERCENT") (str "Ethanol Fuel Percent") (str "0152") 3 D_percent ECU_ENGINE true ECU_HEADER_ENGINE);
  Some (mkCommand (str "EVAP_VAPOR_PRESSURE_ABS") (str "Absolute Evap system Vapor Pressure") (str "0153") 4 D_abs_evap_pressure ECU_ENGINE true ECU_HEADER_ENGINE);
  Some (mkCommand (str "EVAP_VAPOR_PRESSURE_ALT") (str "Evap system vapor pressure") (str "0154") 4 D_evap_pressure_alt ECU_ENGINE true ECU_HEADER_ENGINE);
  Some (mkCommand (str "SHORT_O2_TRIM_B1") (str "Short term secondary O2 trim - Bank 1") (str "0155") 4 D_percent_centered ECU_ENGINE true ECU_HEADER_ENGINE);
  Some (mkCommand (str "LONG_O2_TRIM_B1") (str "Long term secondary O2 trim - Bank 1") (str "0156") 4 D_percent_centered ECU_ENGINE true ECU_HEADER_ENGINE);
  Some (mkCommand (str "SHORT_O2_TRIM_B2") (str "Short term secondary O2 trim - Bank 2") (str "0157") 4 D_percent_centered ECU_ENGINE true ECU_HEADER_ENGINE);
  Some (mkCommand (str "LONG_O2_TRIM_B2") (str "Long term secondary O2 trim - Bank 2") (str "0158") 4 D_percent_centered ECU_ENGINE true ECU_HEADER_ENGINE);
  Some (mkCommand (str "FUEL_RAIL_PRESSURE_ABS") (str "Fuel rail pressure (absolute)") (str "0159") 4 (D_uas 27) ECU_ENGINE true ECU_HEADER_ENGINE);
  Some (mkCommand (str "RELATIVE_ACCEL_POS") (str "Relative accelerator pedal position") (str "015A") 3 D_percent ECU_ENGINE true ECU_HEADER_ENGINE);
  Some (mkCommand (str "HYBRID_BATTERY_REMAINING") (str "Hybrid battery pack remaining life") (str "015B") 3 D_percent ECU_ENGINE true ECU_HEADER_ENGINE);
  Some (mkCommand (str "OIL_TEMP") (str "Engine oil temperature") (str "015C") 3 D_temp ECU_ENGINE true ECU_HEADER_ENGINE);
  Some (mkCommand (str "FUEL_INJECT_TIMING") (str "Fuel injection timing") (str "015D") 4 D_inject_timing ECU_ENGINE true ECU_HEADER_ENGINE);
  Some (mkCommand (str "FUEL_RATE") (str "Engine fuel rate") (str "015E") 4 D_fuel_rate ECU_ENGINE true ECU_HEADER_ENGINE);
  Some (mkCommand (str "EMISSION_REQ") (str "Designed emission requirements") (str "015F") 3 D_drop ECU_ENGINE true ECU_HEADER_ENGINE)
].

(* commands.py:166-168  __mode3__; None marks a reserved PID *)
Definition mode3 : list (option command) :=
[
  Some (mkCommand (str "GET_DTC") (str "Get DTCs") (str "03") 0 D_dtc ECU_ALL false ECU_HEADER_ENGINE)
].

(* commands.py:170-172  __mode4__; None marks a reserved PID *)
Definition mode4 : list (option command) :=
[
  Some (mkCommand (str "CLEAR_DTC") (str "Clear DTCs and Freeze data") (str "04") 0 D_drop ECU_ALL false ECU_HEADER_ENGINE)
].

(* commands.py:174-276  __mode6__; None marks a reserved PID *)
Definition mode6 : list (option command) :=
[
  Some (mkCommand (str "MIDS_A") (str "Supported MIDs [01-20]") (str "0600") 0 D_pid ECU_ALL false ECU_HEADER_ENGINE);
  Some (mkCommand (str "MONITOR_O2_B1S1") (str "O2 Sensor Monitor Bank 1 - Sensor 1") (str "0601") 0 D_monitor ECU_ALL false ECU_HEADER_ENGINE);
  Some (mkCommand (str "MONITOR_O2_B1S2") (str "O2 Sensor Monitor Bank 1 - Sensor 2") (str "0602") 0 D_monitor ECU_ALL false ECU_HEADER_ENGINE);
  Some (mkCommand (str "MONITOR_O2_B1S3") (str "O2 Sensor Monitor Bank 1 - Sensor 3") (str "0603") 0 D_monitor ECU_ALL false ECU_HEADER_ENGINE);
  Some (mkCommand (str "MONITOR_O2_B1S4") (str "O2 Sensor Monitor Bank 1 - Sensor 4") (str "0604") 0 D_monitor ECU_ALL false ECU_HEADER_ENGINE);
  Some (mkCommand (str "MONITOR_O2_B2S1") (str "O2 Sensor Monitor Bank 2 - Sensor 1") (str "0605") 0 D_monitor ECU_ALL false ECU_HEADER_ENGINE);
  Some (mkCommand (str "MONITOR_O2_B2S2") (str "O2 Sensor Monitor Bank 2 - Sensor 2") (str "0606") 0 D_monitor ECU_ALL false ECU_HEADER_ENGINE);
  Some (mkCommand (str "MONITOR_O2_B2S3") (str "O2 Sensor Monitor Bank 2 - Sensor 3") (str "0607") 0 D_monitor ECU_ALL false ECU_HEADER_ENGINE);
  Some (mkCommand (str "MONITOR_O2_B2S4") (str "O2 Sensor Monitor Bank 2 - Sensor 4") (str "0608") 0 D_monitor ECU_ALL false ECU_HEADER_ENGINE);
  Some (mkCommand (str "MONITOR_O2_B3S1") (str "O2 Sensor Monitor Bank 3 - Sensor 1") (str "0609") 0 D_monitor ECU_ALL false ECU_HEADER_ENGINE);
  Some (mkCommand (str "MONITOR_O2_B3S2") (str "O2 Sensor Monitor Bank 3 - Sensor 2") (str "060A") 0 D_monitor ECU_ALL false ECU_HEADER_ENGINE);
  Some (mkCommand (str "MONITOR_O2_B3S3") (str "O2 Sensor Monitor Bank 3 - Sensor 3") (str "060B") 0 D_monitor ECU_ALL false ECU_HEADER_ENGINE);
  Some (mkCommand (str "MONITOR_O2_B3S4") (str "O2 Sensor Monitor Bank 3 - Sensor 4") (str "060C") 0 D_monitor ECU_ALL false ECU_HEADER_ENGINE);
  Some (mkCommand (str "MONITOR_O2_B4S1") (str "O2 Sensor Monitor Bank 4 - Sensor 1") (str "060D") 0 D_monitor ECU_ALL false ECU_HEADER_ENGINE);
  Some (mkCommand (str "MONITOR_O2_B4S2") (str "O2 Sensor Monitor Bank 4 - Sensor 2") (str "060E") 0 D_monitor ECU_ALL false ECU_HEADER_ENGINE);
  Some (mkCommand (str "MONITOR_O2_B4S3") (str "O2 Sensor Monitor Bank 4 - Sensor 3") (str "060F") 0 D_monitor ECU_ALL false ECU_HEADER_ENGINE);
  Some (mkCommand (str "MONITOR_O2_B4S4") (str "O2 Sensor Monitor Bank 4 - Sensor 4") (str "0610") 0 D_monitor ECU_ALL false ECU_HEADER_ENGINE)
] ++
repeat None 15 ++
[
  Some (mkCommand (str "MIDS_B") (str "Supported MIDs [21-40]") (str "0620") 0 D_pid ECU_ALL false ECU_HEADER_ENGINE);
  Some (mkCommand (str "MONITOR_CATALYST_B1") (str "Catalyst Monitor Bank 1") (str "0621") 0 D_monitor ECU_ALL false ECU_HEADER_ENGINE);
  Some (mkCommand (str "MONITOR_CATALYST_B2") (str "Catalyst Monitor Bank 2") (str "0622") 0 D_monitor ECU_ALL false ECU_HEADER_ENGINE);
  Some (mkCommand (str "MONITOR_CATALYST_B3") (str "Catalyst Monitor Bank 3") (str "0623") 0 D_monitor ECU_ALL false ECU_HEADER_ENGINE);
  Some (mkCommand (str "MONITOR_CATALYST_B4") (str "Catalyst Monitor Bank 4") (str "0624") 0 D_monitor ECU_ALL false ECU_HEADER_ENGINE)
] ++
repeat None 12 ++
[
  Some (mkCommand (str "MONITOR_EGR_B1") (str "EGR Monitor Bank 1") (str "0631") 0 D_monitor ECU_ALL false ECU_HEADER_ENGINE);
  Some (mkCommand (str "MONITOR_EGR_B2") (str "EGR Monitor Bank 2") (str "0632") 0 D_monitor ECU_ALL false ECU_HEADER_ENGINE);
  Some (mkCommand (str "MONITOR_EGR_B3") (str "EGR Monitor Bank 3") (str "0633") 0 D_monitor ECU_ALL false ECU_HEADER_ENGINE);
  Some (mkCommand (str "MONITOR_EGR_B4") (str "EGR Monitor Bank 4") (str "0634") 0 D_monitor ECU_ALL false ECU_HEADER_ENGINE);
  Some (mkCommand (str "MONITOR_VVT_B1") (str "VVT Monitor Bank 1") (str "0635") 0 D_monitor ECU_ALL false ECU_HEADER_ENGINE);
  Some (mkCommand (str "MONITOR_VVT_B2") (str "VVT Monitor Bank 2") (str "0636") 0 D_monitor ECU_ALL false ECU_HEADER_ENGINE);
  Some (mkCommand (str "MONITOR_VVT_B3") (str "VVT Monitor Bank 3") (str "0637") 0 D_monitor ECU_ALL false ECU_HEADER_ENGINE);
  Some (mkCommand (str "MONITOR_VVT_B4") (str "VVT Monitor Bank 4") (str "0638") 0 D_monitor ECU_ALL false ECU_HEADER_ENGINE);
  Some (mkCommand (str "MONITOR_EVAP_150") (str "EVAP Monitor (Cap Off / 0.150"")") (str "0639") 0 D_monitor ECU_ALL false ECU_HEADER_ENGINE);
  Some (mkCommand (str "MONITOR_EVAP_090") (str "EVAP Monitor (0.090"")") (str "063A") 0 D_monitor ECU_ALL false ECU_HEADER_ENGINE);
  Some (mkCommand (str "MONITOR_EVAP_040") (str "EVAP Monitor (0.040"")") (str "063B") 0 D_monitor ECU_ALL false ECU_HEADER_ENGINE);
  Some (mkCommand (str "MONITOR_EVAP_020") (str "EVAP Monitor (0.020"")") (str "063C") 0 D_monitor ECU_ALL false ECU_HEADER_ENGINE);
  Some (mkCommand (str "MONITOR_PURGE_FLOW") (str "Purge Flow Monitor") (str "063D") 0 D_monitor ECU_ALL false ECU_HEADER_ENGINE)
] ++
repeat None 2 ++
[
  Some (mkCommand (str "MIDS_C") (str "Supported MIDs [41-60]") (str "0640") 0 D_pid ECU_ALL false ECU_HEADER_ENGINE);
  Some (mkCommand (str "MONITOR_O2_HEATER_B1S1") (str "O2 Sensor Heater Monitor Bank 1 - Sensor 1") (str "0641") 0 D_monitor ECU_ALL false ECU_HEADER_ENGINE);
  Some (mkCommand (str "MONITOR_O2_HEATER_B1S2") (str "O2 Sensor Heater Monitor Bank 1 - Sensor 2") (str "0642") 0 D_monitor ECU_ALL false ECU_HEADER_ENGINE);
  Some (mkCommand (str "MONITOR_O2_HEATER_B1S3") (str "O2 Sensor Heater Monitor Bank 1 - Sensor 3") (str "0643") 0 D_monitor ECU_ALL false ECU_HEADER_ENGINE);
  Some (mkCommand (str "MONITOR_O2_HEATER_B1S4") (str "O2 Sensor Heater Monitor Bank 1 - Sensor 4") (str "0644") 0 D_monitor ECU_ALL false ECU_HEADER_ENGINE);
  Some (mkCommand (str "MONITOR_O2_HEATER_B2S1") (str "O2 Sensor Heater Monitor Bank 2 - Sensor 1") (str "0645") 0 D_monitor ECU_ALL false ECU_HEADER_ENGINE);
  Some (mkCommand (str "MONITOR_O2_HEATER_B2S2") (str "O2 Sensor Heater Monitor Bank 2 - Sensor 2") (str "0646") 0 D_monitor ECU_ALL false ECU_HEADER_ENGINE);
  Some (mkCommand (str "MONITOR_O2_HEATER_B2S3") (str "O2 Sensor Heater Monitor Bank 2 - Sensor 3") (str "0647") 0 D_monitor ECU_ALL false ECU_HEADER_ENGINE);
  Some (mkCommand (str "MONITOR_O2_HEATER_B2S4") (str "O2 Sensor Heater Monitor Bank 2 - Sensor 4") (str "0648") 0 D_monitor ECU_ALL false ECU_HEADER_ENGINE);
  Some (mkCommand (str "MONITOR_O2_HEATER_B3S1") (str "O2 Sensor Heater Monitor Bank 3 - Sensor 1") (str "0649") 0 D_monitor ECU_ALL false ECU_HEADER_ENGINE);
  Some (mkCommand (str "MONITOR_O2_HEATER_B3S2") (str "O2 Sensor Heater Monitor Bank 3 - Sensor 2") (str "064A") 0 D_monitor ECU_ALL false ECU_HEADER_ENGINE);
  Some (mkCommand (str "MONITOR_O2_HEATER_B3S3") (str "O2 Sensor Heater Monitor Bank 3 - Sensor 3") (str "064B") 0 D_monitor ECU_ALL false ECU_HEADER_ENGINE);
  Some (mkCommand (str "MONITOR_O2_HEATER_B3S4") (str "O2 Sensor Heater Monitor Bank 3 - Sensor 4") (str "064C") 0 D_monitor ECU_ALL false ECU_HEADER_ENGINE);
  Some (mkCommand (str "MONITOR_O2_HEATER_B4S1") (str "O2 Sensor Heater Monitor Bank 4 - Sensor 1") (str "064D") 0 D_monitor ECU_ALL false ECU_HEADER_ENGINE);
  Some (mkCommand (str "MONITOR_O2_HEATER_B4S2") (str "O2 Sensor Heater Monitor Bank 4 - Sensor 2") (str "064E") 0 D_monitor ECU_ALL false ECU_HEADER_ENGINE);
  Some (mkCommand (str "MONITOR_O2_HEATER_B4S3") (str "O2 Sensor Heater Monitor Bank 4 - Sensor 3") (str "064F") 0 D_monitor ECU_ALL false ECU_HEADER_ENGINE);
  Some (mkCommand (str "MONITOR_O2_HEATER_B4S4") (str "O2 Sensor Heater Monitor Bank 4 - Sensor 4") (str "0650") 0 D_monitor ECU_ALL false ECU_HEADER_ENGINE)
] ++
repeat None 15 ++
[
  Some (mkCommand (str "MIDS_D") (str "Supported MIDs [61-80]") (str "0660") 0 D_pid ECU_ALL false ECU_HEADER_ENGINE);
  Some (mkCommand (str "MONITOR_HEATED_CATALYST_B1") (str "Heated Catalyst Monitor Bank 1") (str "0661") 0 D_monitor ECU_ALL false ECU_HEADER_ENGINE);
  Some (mkCommand (str "MONITOR_HEATED_CATALYST_B2") (str "Heated Catalyst Monitor Bank 2") (str "0662") 0 D_monitor ECU_ALL false ECU_HEADER_ENGINE);
  Some (mkCommand (str "MONITOR_HEATED_CATALYST_B3") (str "Heated Catalyst Monitor Bank 3") (str "0663") 0 D_monitor ECU_ALL false ECU_HEADER_ENGINE);
  Some (mkCommand (str "MONITOR_HEATED_CATALYST_B4") (str "Heated Catalyst Monitor Bank 4") (str "0664") 0 D_monitor ECU_ALL false ECU_HEADER_ENGINE)
] ++
repeat None 12 ++
[
  Some (mkCommand (str "MONITOR_SECONDARY_AIR_1") (str "Secondary Air Monitor 1") (str "0671") 0 D_monitor ECU_ALL false ECU_HEADER_ENGINE);
  Some (mkCommand (str "MONITOR_SECONDARY_AIR_2") (str "Secondary Air Monitor 2") (str "0672") 0 D_monitor ECU_ALL false ECU_HEADER_ENGINE);
  Some (mkCommand (str "MONITOR_SECONDARY_AIR_3") (str "Secondary Air Monitor 3") (str "0673") 0 D_monitor ECU_ALL false ECU_HEADER_ENGINE);
  Some (mkCommand (str "MONITOR_SECONDARY_AIR_4") (str "Secondary Air Monitor 4") (str "0674") 0 D_monitor ECU_ALL false ECU_HEADER_ENGINE)
] ++
repeat None 11 ++
[
  Some (mkCommand (str "MIDS_E") (str "Supported MIDs [81-A0]") (str "0680") 0 D_pid ECU_ALL false ECU_HEADER_ENGINE);
  Some (mkCommand (str "MONITOR_FUEL_SYSTEM_B1") (str "Fuel System Monitor Bank 1") (str "0681") 0 D_monitor ECU_ALL false ECU_HEADER_ENGINE);
  Some (mkCommand (str "MONITOR_FUEL_SYSTEM_B2") (str "Fuel System Monitor Bank 2") (str "0682") 0 D_monitor ECU_ALL false ECU_HEADER_ENGINE);
  Some (mkCommand (str "MONITOR_FUEL_SYSTEM_B3") (str "Fuel System Monitor Bank 3") (str "0683") 0 D_monitor ECU_ALL false ECU_HEADER_ENGINE);
  Some (mkCommand (str "MONITOR_FUEL_SYSTEM_B4") (str "Fuel System Monitor Bank 4") (str "0684") 0 D_monitor ECU_ALL false ECU_HEADER_ENGINE);
  Some (mkCommand (str "MONITOR_BOOST_PRESSURE_B1") (str "Boost Pressure Control Monitor Bank 1") (str "0685") 0 D_monitor ECU_ALL false ECU_HEADER_ENGINE);
  Some (mkCommand (str "MONITOR_BOOST_PRESSURE_B2") (str "Boost Pressure Control Monitor Bank 1") (str "0686") 0 D_monitor ECU_ALL false ECU_HEADER_ENGINE)
] ++
repeat None 9 ++
[
  Some (mkCommand (str "MONITOR_NOX_ABSORBER_B1") (str "NOx Absorber Monitor Bank 1") (str "0690") 0 D_monitor ECU_ALL false ECU_HEADER_ENGINE);
  Some (mkCommand (str "MONITOR_NOX_ABSORBER_B2") (str "NOx Absorber Monitor Bank 2") (str "0691") 0 D_monitor ECU_ALL false ECU_HEADER_ENGINE)
] ++
repeat None 6 ++
[
  Some (mkCommand (str "MONITOR_NOX_CATALYST_B1") (str "NOx Catalyst Monitor Bank 1") (str "0698") 0 D_monitor ECU_ALL false ECU_HEADER_ENGINE);
  Some (mkCommand (str "MONITOR_NOX_CATALYST_B2") (str "NOx Catalyst Monitor Bank 2") (str "0699") 0 D_monitor ECU_ALL false ECU_HEADER_ENGINE)
] ++
repeat None 6 ++
[
  Some (mkCommand (str "MIDS_F") (str "Supported MIDs [A1-C0]") (str "06A0") 0 D_pid ECU_ALL false ECU_HEADER_ENGINE);
  Some (mkCommand (str "MONITOR_MISFIRE_GENERAL") (str "Misfire Monitor General Data") (str "06A1") 0 D_monitor ECU_ALL false ECU_HEADER_ENGINE);
  Some (mkCommand (str "MONITOR_MISFIRE_CYLINDER_1") (str "Misfire Cylinder 1 Data") (str "06A2") 0 D_monitor ECU_ALL false ECU_HEADER_ENGINE);
  Some (mkCommand (str "MONITOR_MISFIRE_CYLINDER_2") (str "Misfire Cylinder 2 Data") (str "06A3") 0 D_monitor ECU_ALL false ECU_HEADER_ENGINE);
  Some (mkCommand (str "MONITOR_MISFIRE_CYLINDER_3") (str "Misfire Cylinder 3 Data") (str "06A4") 0 D_monitor ECU_ALL false ECU_HEADER_ENGINE);
  Some (mkCommand (str "MONITOR_MISFIRE_CYLINDER_4") (str "Misfire Cylinder 4 Data") (str "06A5") 0 D_monitor ECU_ALL false ECU_HEADER_ENGINE);
  Some (mkCommand (str "MONITOR_MISFIRE_CYLINDER_5") (str "Misfire Cylinder 5 Data") (str "06A6") 0 D_monitor ECU_ALL false ECU_HEADER_ENGINE);
  Some (mkCommand (str "MONITOR_MISFIRE_CYLINDER_6") (str "Misfire Cylinder 6 Data") (str "06A7") 0 D_monitor ECU_ALL false ECU_HEADER_ENGINE);
  Some (mkCommand (str "MONITOR_MISFIRE_CYLINDER_7") (str "Misfire Cylinder 7 Data") (str "06A8") 0 D_monitor ECU_ALL false ECU_HEADER_ENGINE);
  Some (mkCommand (str "MONITOR_MISFIRE_CYLINDER_8") (str "Misfire Cylinder 8 Data") (str "06A9") 0 D_monitor ECU_ALL false ECU_HEADER_ENGINE);
  Some (mkCommand (str "MONITOR_MISFIRE_CYLINDER_9") (str "Misfire Cylinder 9 Data") (str "06AA") 0 D_monitor ECU_ALL false ECU_HEADER_ENGINE);
  Some (mkCommand (str "MONITOR_MISFIRE_CYLINDER_10") (str "Misfire Cylinder 10 Data") (str "06AB") 0 D_monitor ECU_ALL false ECU_HEADER_ENGINE);
  Some (mkCommand (str "MONITOR_MISFIRE_CYLINDER_11") (str "Misfire Cylinder 11 Data") (str "06AC") 0 D_monitor ECU_ALL false ECU_HEADER_ENGINE);
  Some (mkCommand (str "MONITOR_MISFIRE_CYLINDER_12") (str "Misfire Cylinder 12 Data") (str "06AD") 0 D_monitor ECU_ALL false ECU_HEADER_ENGINE)
] ++
repeat None 2 ++
[
  Some (mkCommand (str "MONITOR_PM_FILTER_B1") (str "PM Filter Monitor Bank 1") (str "06B0") 0 D_monitor ECU_ALL false ECU_HEADER_ENGINE);
  Some (mkCommand (str "MONITOR_PM_FILTER_B2") (str "PM Filter Monitor Bank 2") (str "06B1") 0 D_monitor ECU_ALL false ECU_HEADER_ENGINE)
].

(* commands.py:278-280  __mode7__; None marks a reserved PID *)
Definition mode7 : list (option command) :=
[
  Some (mkCommand (str "GET_CURRENT_DTC") (str "Get DTCs from the current/last driving cycle") (str "07") 0 D_dtc ECU_ALL false ECU_HEADER_ENGINE)
].

(* commands.py:283-301  __mode9__; None marks a reserved PID *)
Definition mode9 : list (option command) :=
[
  Some (mkCommand (str "PIDS_9A") (str "Supported PIDs [01-20]") (str "0900") 7 D_pid ECU_ALL true ECU_HEADER_ENGINE);
  Some (mkCommand (str "VIN_MESSAGE_COUNT") (str "VIN Message Count") (str "0901") 3 D_count ECU_ENGINE true ECU_HEADER_ENGINE);
  Some (mkCommand (str "VIN") (str "Vehicle Identification Number") (str "0902") 22 (D_encoded_string 17) ECU_ENGINE true ECU_HEADER_ENGINE);
  Some (mkCommand (str "CALIBRATION_ID_MESSAGE_COUNT") (str "Calibration ID message count for PID 04") (str "0903") 3 D_count ECU_ALL true ECU_HEADER_ENGINE);
  Some (mkCommand (str "CALIBRATION_ID") (str "Calibration ID") (str "0904") 18 (D_encoded_string 16) ECU_ALL true ECU_HEADER_ENGINE);
  Some (mkCommand (str "CVN_MESSAGE_COUNT") (str "CVN Message Count for PID 06") (str "0905") 3 D_count ECU_ALL true ECU_HEADER_ENGINE);
  Some (mkCommand (str "CVN") (str "Calibration Verification Numbers") (str "0906") 10 D_cvn ECU_ALL true ECU_HEADER_ENGINE)
].

(* commands.py:303-306  __misc__; None marks a reserved PID *)
Definition misc : list (option command) :=
[
  Some (mkCommand (str "ELM_VERSION") (str "ELM327 version string") (str "ATI") 0 D_raw_string ECU_UNKNOWN false ECU_HEADER_ENGINE);
  Some (mkCommand (str "ELM_VOLTAGE") (str "Voltage detected by OBD-II adapter") (str "ATRV") 0 D_elm_voltage ECU_UNKNOWN false ECU_HEADER_ENGINE)
].

