(* Generated by tools/gen_tables.py from obd/codes.py. No proofs. *)
From Coq Require Import ZArith List.
From Verif Require Import Py.
Import ListNotations.
Open Scope Z_scope.

(* codes.py:33-2101  DTC *)
Definition DTC : list (text * text) := [
  ((str "P0001"), (str "Fuel Volume Regulator Control Circuit/Open"));
  ((str "P0002"), (str "Fuel Volume Regulator Control Circuit Range/Performance"));
  ((str "P0003"), (str "Fuel Volume Regulator Control Circuit Low"));
  ((str "P0004"), (str "Fuel Volume Regulator Control Circuit High"));
  ((str "P0005"), (str "Fuel Shutoff Valve 'A' Control Circuit/Open"));
  ((str "P0006"), (str "Fuel Shutoff Valve 'A' Control Circuit Low"));
  ((str "P0007"), (str "Fuel Shutoff Valve 'A' Control Circuit High"));
  ((str "P0008"), (str "Engine Position System Performance"));
  ((str "P0009"), (str "Engine Position System Performance"));
  ((str "P0010"), (str "'A' Camshaft Position Actuator Circuit"));
  ((str "P0011"), (str "'A' Camshaft Position - Timing Over-Advanced or System Performance"));
  ((str "P0012"), (str "'A' Camshaft Position - Timing Over-Retarded"));
  ((str "P0013"), (str "'B' Camshaft Position - Actuator Circuit"));
  ((str "P0014"), (str "'B' Camshaft Position - Timing Over-Advanced or System Performance"));
  ((str "P0015"), (str "'B' Camshaft Position - Timing Over-Retarded"));
  ((str "P0016"), (str "Crankshaft Position - Camshaft Position Correlation"));
  ((str "P0017"), (str "Crankshaft Position - Camshaft Position Correlation"));
  ((str "P0018"), (str "Crankshaft Position - Camshaft Position Correlation"));
  ((str "P0019"), (str "Crankshaft Position - Camshaft Position Correlation"));
  ((str "P0020"), (str "'A' Camshaft Position Actuator Circuit"));
  ((str "P0021"), (str "'A' Camshaft Position - Timing Over-Advanced or System Performance"));
  ((str "P0022"), (str "'A' Camshaft Position - Timing Over-Retarded"));
  ((str "P0023"), (str "'B' Camshaft Position - Actuator Circuit"));
  ((str "P0024"), (str "'B' Camshaft Position - Timing Over-Advanced or System Performance"));
  ((str "P0025"), (str "'B' Camshaft Position - Timing Over-Retarded"));
  ((str "P0026"), (str "Intake Valve Control Solenoid Circuit Range/Performance"));
  ((str "P0027"), (str "Exhaust Valve Control Solenoid Circuit Range/Performance"));
  ((str "P0028"), (str "Intake Valve Control Solenoid Circuit Range/Performance"));
  ((str "P0029"), (str "Exhaust Valve Control Solenoid Circuit Range/Performance"));
  ((str "P0030"), (str "HO2S Heater Control Circuit"));
  ((str "P0031"), (str "HO2S Heater Control Circuit Low"));
  ((str "P0032"), (str "HO2S Heater Control Circuit High"));
  ((str "P0033"), (str "Turbo Charger Bypass Valve Control Circuit"));
  ((str "P0034"), (str "Turbo Charger Bypass Valve Control Circuit Low"));
  ((str "P0035"), (str "Turbo Charger Bypass Valve Control Circuit High"));
  ((str "P0036"), (str "HO2S Heater Control Circuit"));
  ((str "P0037"), (str "HO2S Heater Control Circuit Low"));
  ((str "P0038"), (str "HO2S Heater Control Circuit High"));
  ((str "P0039"), (str "Turbo/Super Charger Bypass Valve Control Circuit Range/Performance"));
  ((str "P0040"), (str "O2 Sensor Signals Swapped Bank 1 Sensor 1/ Bank 2 Sensor 1"));
  ((str "P0041"), (str "O2 Sensor Signals Swapped Bank 1 Sensor 2/ Bank 2 Sensor 2"));
  ((str "P0042"), (str "HO2S Heater Control Circuit"));
  ((str "P0043"), (str "HO2S Heater Control Circuit Low"));
  ((str "P0044"), (str "HO2S Heater Control Circuit High"));
  ((str "P0045"), (str "Turbo/Super Charger Boost Control Solenoid Circuit/Open"));
  ((str "P0046"), (str "Turbo/Super Charger Boost Control Solenoid Circuit Range/Performance"));
  ((str "P0047"), (str "Turbo/Super Charger Boost Control Solenoid Circuit Low"));
  ((str "P0048"), (str "Turbo/Super Charger Boost Control Solenoid Circuit High"));
  ((str "P0049"), (str "Turbo/Super Charger Turbine Overspeed"));
  ((str "P0050"), (str "HO2S Heater Control Circuit"));
  ((str "P0051"), (str "HO2S Heater Control Circuit Low"));
  ((str "P0052"), (str "HO2S Heater Control Circuit High"));
  ((str "P0053"), (str "HO2S Heater Resistance"));
  ((str "P0054"), (str "HO2S Heater Resistance"));
  ((str "P0055"), (str "HO2S Heater Resistance"));
  ((str "P0056"), (str "HO2S Heater Control Circuit"));
  ((str "P0057"), (str "HO2S Heater Control Circuit Low"));
  ((str "P0058"), (str "HO2S Heater Control Circuit High"));
  ((str "P0059"), (str "HO2S Heater Resistance"));
  ((str "P0060"), (str "HO2S Heater Resistance"));
  ((str "P0061"), (str "HO2S Heater Resistance"));
  ((str "P0062"), (str "HO2S Heater Control Circuit"));
  ((str "P0063"), (str "HO2S Heater Control Circuit Low"));
  ((str "P0064"), (str "HO2S Heater Control Circuit High"));
  ((str "P0065"), (str "Air Assisted Injector Control Range/Performance"));
  ((str "P0066"), (str "Air Assisted Injector Control Circuit or Circuit Low"));
  ((str "P0067"), (str "Air Assisted Injector Control Circuit High"));
  ((str "P0068"), (str "MAP/MAF - Throttle Position Correlation"));
  ((str "P0069"), (str "Manifold Absolute Pressure - Barometric Pressure Correlation"));
  ((str "P0070"), (str "Ambient Air Temperature Sensor Circuit"));
  ((str "P0071"), (str "Ambient Air Temperature Sensor Range/Performance"));
  ((str "P0072"), (str "Ambient Air Temperature Sensor Circuit Low"));
  ((str "P0073"), (str "Ambient Air Temperature Sensor Circuit High"));
  ((str "P0074"), (str "Ambient Air Temperature Sensor Circuit Intermittent"));
  ((str "P0075"), (str "Intake Valve Control Solenoid Circuit"));
  ((str "P0076"), (str "Intake Valve Control Solenoid Circuit Low"));
  ((str "P0077"), (str "Intake Valve Control Solenoid Circuit High"));
  ((str "P0078"), (str "Exhaust Valve Control Solenoid Circuit"));
  ((str "P0079"), (str "Exhaust Valve Control Solenoid Circuit Low"));
  ((str "P0080"), (str "Exhaust Valve Control Solenoid Circuit High"));
  ((str "P0081"), (str "Intake Valve Control Solenoid Circuit"));
  ((str "P0082"), (str "Intake Valve Control Solenoid Circuit Low"));
  ((str "P0083"), (str "Intake Valve Control Solenoid Circuit High"));
  ((str "P0084"), (str "Exhaust Valve Control Solenoid Circuit"));
  ((str "P0085"), (str "Exhaust Valve Control Solenoid Circuit Low"));
  ((str "P0086"), (str "Exhaust Valve Control Solenoid Circuit High"));
  ((str "P0087"), (str "Fuel Rail/System Pressure - Too Low"));
  ((str "P0088"), (str "Fuel Rail/System Pressure - Too High"));
  ((str "P0089"), (str "Fuel Pressure Regulator 1 Performance"));
  ((str "P0090"), (str "Fuel Pressure Regulator 1 Control Circuit"));
  ((str "P0091"), (str "Fuel Pressure Regulator 1 Control Circuit Low"));
  ((str "P0092"), (str "Fuel Pressure Regulator 1 Control Circuit High"));
  ((str "P0093"), (str "Fuel System Leak Detected - Large Leak"));
  ((str "P0094"), (str "Fuel System Leak Detected - Small Leak"));
  ((str "P0095"), (str "Intake Air Temperature Sensor 2 Circuit"));
  ((str "P0096"), (str "Intake Air Temperature Sensor 2 Circuit Range/Performance"));
  ((str "P0097"), (str "Intake Air Temperature Sensor 2 Circuit Low"));
  ((str "P0098"), (str "Intake Air Temperature Sensor 2 Circuit High"));
  ((str "P0099"), (str "Intake Air Temperature Sensor 2 Circuit Intermittent/Erratic"));
  ((str "P0100"), (str "Mass or Volume Air Flow Circuit"));
  ((str "P0101"), (str "Mass or Volume Air Flow Circuit Range/Performance"));
  ((str "P0102"), (str "Mass or Volume Air Flow Circuit Low Input"));
  ((str "P0103"), (str "Mass or Volume Air Flow Circuit High Input"));
  ((str "P0104"), (str "Mass or Volume Air Flow Circuit Intermittent"));
  ((str "P0105"), (str "Manifold Absolute Pressure/Barometric Pressure Circuit"));
  ((str "P0106"), (str "Manifold Absolute Pressure/Barometric Pressure Circuit Range/Performance"));
  ((str "P0107"), (str "Manifold Absolute Pressure/Barometric Pressure Circuit Low Input"));
  ((str "P0108"), (str "Manifold Absolute Pressure/Barometric Pressure Circuit High Input"));
  ((str "P0109"), (str "Manifold Absolute Pressure/Barometric Pressure Circuit Intermittent"));
  ((str "P0110"), (str "Intake Air Temperature Sensor 1 Circuit"));
  ((str "P0111"), (str "Intake Air Temperature Sensor 1 Circuit Range/Performance"));
  ((str "P0112"), (str "Intake Air Temperature Sensor 1 Circuit Low"));
  ((str "P0113"), (str "Intake Air Temperature Sensor 1 Circuit High"));
  ((str "P0114"), (str "Intake Air Temperature Sensor 1 Circuit Intermittent"));
  ((str "P0115"), (str "Engine Coolant Temperature Circuit"));
  ((str "P0116"), (str "Engine Coolant Temperature Circuit Range/Performance"));
  ((str "P0117"), (str "Engine Coolant Temperature Circuit Low"));
  ((str "P0118"), (str "Engine Coolant Temperature Circuit High"));
  ((str "P0119"), (str "Engine Coolant Temperature Circuit Intermittent"));
  ((str "P0120"), (str "Throttle/Pedal Position Sensor/Switch 'A' Circuit"));
  ((str "P0121"), (str "Throttle/Pedal Position Sensor/Switch 'A' Circuit Range/Performance"));
  ((str "P0122"), (str "Throttle/Pedal Position Sensor/Switch 'A' Circuit Low"));
  ((str "P0123"), (str "Throttle/Pedal Position Sensor/Switch 'A' Circuit High"));
  ((str "P0124"), (str "Throttle/Pedal Position Sensor/Switch 'A' Circuit Intermittent"));
  ((str "P0125"), (str "Insufficient Coolant Temperature for Closed Loop Fuel Control"));
  ((str "P0126"), (str "Insufficient Coolant Temperature for Stable Operation"));
  ((str "P0127"), (str "Intake Air Temperature Too High"));
  ((str "P0128"), (str "Coolant Thermostat (Coolant Temperature Below Thermostat Regulating Temperature)"));
  ((str "P0129"), (str "Barometric Pressure Too Low"));
  ((str "P0130"), (str "O2 Sensor Circuit"));
  ((str "P0131"), (str "O2 Sensor Circuit Low Voltage"));
  ((str "P0132"), (str "O2 Sensor Circuit High Voltage"));
  ((str "P0133"), (str "O2 Sensor Circuit Slow OBDResponse"));
  ((str "P0134"), (str "O2 Sensor Circuit No Activity Detected"));
  ((str "P0135"), (str "O2 Sensor Heater Circuit"));
  ((str "P0136"), (str "O2 Sensor Circuit"));
  ((str "P0137"), (str "O2 Sensor Circuit Low Voltage"));
  ((str "P0138"), (str "O2 Sensor Circuit High Voltage"));
  ((str "P0139"), (str "O2 Sensor Circuit Slow OBDResponse"));
  ((str "P0140"), (str "O2 Sensor Circuit No Activity Detected"));
  ((str "P0141"), (str "O2 Sensor Heater Circuit"));
  ((str "P0142"), (str "O2 Sensor Circuit"));
  ((str "P0143"), (str "O2 Sensor Circuit Low Voltage"));
  ((str "P0144"), (str "O2 Sensor Circuit High Voltage"));
  ((str "P0145"), (str "O2 Sensor Circuit Slow OBDResponse"));
  ((str "P0146"), (str "O2 Sensor Circuit No Activity Detected"));
  ((str "P0147"), (str "O2 Sensor Heater Circuit"));
  ((str "P0148"), (str "Fuel Delivery Error"));
  ((str "P0149"), (str "Fuel Timing Error"));
  ((str "P0150"), (str "O2 Sensor Circuit"));
  ((str "P0151"), (str "O2 Sensor Circuit Low Voltage"));
  ((str "P0152"), (str "O2 Sensor Circuit High Voltage"));
  ((str "P0153"), (str "O2 Sensor Circuit Slow OBDResponse"));
  ((str "P0154"), (str "O2 Sensor Circuit No Activity Detected"));
  ((str "P0155"), (str "O2 Sensor Heater Circuit"));
  ((str "P0156"), (str "O2 Sensor Circuit"));
  ((str "P0157"), (str "O2 Sensor Circuit Low Voltage"));
  ((str "P0158"), (str "O2 Sensor Circuit High Voltage"));
  ((str "P0159"), (str "O2 Sensor Circuit Slow OBDResponse"));
  ((str "P0160"), (str "O2 Sensor Circuit No Activity Detected"));
  ((str "P0161"), (str "O2 Sensor Heater Circuit"));
  ((str "P0162"), (str "O2 Sensor Circuit"));
  ((str "P0163"), (str "O2 Sensor Circuit Low Voltage"));
  ((str "P0164"), (str "O2 Sensor Circuit High Voltage"));
  ((str "P0165"), (str "O2 Sensor Circuit Slow OBDResponse"));
  ((str "P0166"), (str "O2 Sensor Circuit No Activity Detected"));
  ((str "P0167"), (str "O2 Sensor Heater Circuit"));
  ((str "P0168"), (str "Fuel Temperature Too High"));
  ((str "P0169"), (str "Incorrect Fuel Composition"));
  ((str "P0170"), (str "Fuel Trim"));
  ((str "P0171"), (str "System Too Lean"));
  ((str "P0172"), (str "System Too Rich"));
  ((str "P0173"), (str "Fuel Trim"));
  ((str "P0174"), (str "System Too Lean"));
  ((str "P0175"), (str "System Too Rich"));
  ((str "P0176"), (str "Fuel Composition Sensor Circuit"));
  ((str "P0177"), (str "Fuel Composition Sensor Circuit Range/Performance"));
  ((str "P0178"), (str "Fuel Composition Sensor Circuit Low"));
  ((str "P0179"), (str "Fuel Composition Sensor Circuit High"));
  ((str "P0180"), (str "Fuel Temperature Sensor A Circuit"));
  ((str "P0181"), (str "Fuel Temperature Sensor A Circuit Range/Performance"));
  ((str "P0182"), (str "Fuel Temperature Sensor A Circuit Low"));
  ((str "P0183"), (str "Fuel Temperature Sensor A Circuit High"));
  ((str "P0184"), (str "Fuel Temperature Sensor A Circuit Intermittent"));
  ((str "P0185"), (str "Fuel Temperature Sensor B Circuit"));
  ((str "P0186"), (str "Fuel Temperature Sensor B Circuit Range/Performance"));
  ((str "P0187"), (str "Fuel Temperature Sensor B Circuit Low"));
  ((str "P0188"), (str "Fuel Temperature Sensor B Circuit High"));
  ((str "P0189"), (str "Fuel Temperature Sensor B Circuit Intermittent"));
  ((str "P0190"), (str "Fuel Rail Pressure Sensor Circuit"));
  ((str "P0191"), (str "Fuel Rail Pressure Sensor Circuit Range/Performance"));
  ((str "P0192"), (str "Fuel Rail Pressure Sensor Circuit Low"));
  ((str "P0193"), (str "Fuel Rail Pressure Sensor Circuit High"));
  ((str "P0194"), (str "Fuel Rail Pressure Sensor Circuit Intermittent"));
  ((str "P0195"), (str "Engine Oil Temperature Sensor"));
  ((str "P0196"), (str "Engine Oil Temperature Sensor Range/Performance"));
  ((str "P0197"), (str "Engine Oil Temperature Sensor Low"));
  ((str "P0198"), (str "Engine Oil Temperature Sensor High"));
  ((str "P0199"), (str "Engine Oil Temperature Sensor Intermittent"));
  ((str "P0200"), (str "Injector Circuit/Open"));
  ((str "P0201"), (str "Injector Circuit/Open - Cylinder 1"));
  ((str "P0202"), (str "Injector Circuit/Open - Cylinder 2"));
  ((str "P0203"), (str "Injector Circuit/Open - Cylinder 3"));
  ((str "P0204"), (str "Injector Circuit/Open - Cylinder 4"));
  ((str "P0205"), (str "Injector Circuit/Open - Cylinder 5"));
  ((str "P0206"), (str "Injector Circuit/Open - Cylinder 6"));
  ((str "P0207"), (str "Injector Circuit/Open - Cylinder 7"));
  ((str "P0208"), (str "Injector Circuit/Open - Cylinder 8"));
  ((str "P0209"), (str "Injector Circuit/Open - Cylinder 9"));
  ((str "P0210"), (str "Injector Circuit/Open - Cylinder 10"));
  ((str "P0211"), (str "Injector Circuit/Open - Cylinder 11"));
  ((str "P0212"), (str "Injector Circuit/Open - Cylinder 12"));
  ((str "P0213"), (str "Cold Start Injector 1"));
  ((str "P0214"), (str "Cold Start Injector 2"));
  ((str "P0215"), (str "Engine Shutoff Solenoid"));
  ((str "P0216"), (str "Injector/Injection Timing Control Circuit"));
  ((str "P0217"), (str "Engine Coolant Over Temperature Condition"));
  ((str "P0218"), (str "Transmission Fluid Over Temperature Condition"));
  ((str "P0219"), (str "Engine Overspeed Condition"));
  ((str "P0220"), (str "Throttle/Pedal Position Sensor/Switch 'B' Circuit"));
  ((str "P0221"), (str "Throttle/Pedal Position Sensor/Switch 'B' Circuit Range/Performance"));
  ((str "P0222"), (str "Throttle/Pedal Position Sensor/Switch 'B' Circuit Low"));
  ((str "P0223"), (str "Throttle/Pedal Position Sensor/Switch 'B' Circuit High"));
  ((str "P0224"), (str "Throttle/Pedal Position Sensor/Switch 'B' Circuit Intermittent"));
  ((str "P0225"), (str "Throttle/Pedal Position Sensor/Switch 'C' Circuit"));
  ((str "P0226"), (str "Throttle/Pedal Position Sensor/Switch 'C' Circuit Range/Performance"));
  ((str "P0227"), (str "Throttle/Pedal Position Sensor/Switch 'C' Circuit Low"));
  ((str "P0228"), (str "Throttle/Pedal Position Sensor/Switch 'C' Circuit High"));
  ((str "P0229"), (str "Throttle/Pedal Position Sensor/Switch 'C' Circuit Intermittent"));
  ((str "P0230"), (str "Fuel Pump Primary Circuit"));
  ((str "P0231"), (str "Fuel Pump Secondary Circuit Low"));
  ((str "P0232"), (str "Fuel Pump Secondary Circuit High"));
  ((str "P0233"), (str "Fuel Pump Secondary Circuit Intermittent"));
  ((str "P0234"), (str "Turbo/Super Charger Overboost Condition"));
  ((str "P0235"), (str "Turbo/Super Charger Boost Sensor 'A' Circuit"));
  ((str "P0236"), (str "Turbo/Super Charger Boost Sensor 'A' Circuit Range/Performance"));
  ((str "P0237"), (str "Turbo/Super Charger Boost Sensor 'A' Circuit Low"));
  ((str "P0238"), (str "Turbo/Super Charger Boost Sensor 'A' Circuit High"));
  ((str "P0239"), (str "Turbo/Super Charger Boost Sensor 'B' Circuit"));
  ((str "P0240"), (str "Turbo/Super Charger Boost Sensor 'B' Circuit Range/Performance"));
  ((str "P0241"), (str "Turbo/Super Charger Boost Sensor 'B' Circuit Low"));
  ((str "P0242"), (str "Turbo/Super Charger Boost Sensor 'B' Circuit High"));
  ((str "P0243"), (str "Turbo/Super Charger Wastegate Solenoid 'A'"));
  ((str "P0244"), (str "Turbo/Super Charger Wastegate Solenoid 'A' Range/Performance"));
  ((str "P0245"), (str "Turbo/Super Charger Wastegate Solenoid 'A' Low"));
  ((str "P0246"), (str "Turbo/Super Charger Wastegate Solenoid 'A' High"));
  ((str "P0247"), (str "Turbo/Super Charger Wastegate Solenoid 'B'"));
  ((str "P0248"), (str "Turbo/Super Charger Wastegate Solenoid 'B' Range/Performance"));
  ((str "P0249"), (str "Turbo/Super Charger Wastegate Solenoid 'B' Low"));
  ((str "P0250"), (str "Turbo/Super Charger Wastegate Solenoid 'B' High"));
  ((str "P0251"), (str "Injection Pump Fuel Metering Control 'A' (Cam/Rotor/Injector)"));
  ((str "P0252"), (str "Injection Pump Fuel Metering Control 'A' Range/Performance (Cam/Rotor/Injector)"));
  ((str "P0253"), (str "Injection Pump Fuel Metering Control 'A' Low (Cam/Rotor/Injector)"));
  ((str "P0254"), (str "Injection Pump Fuel Metering Control 'A' High (Cam/Rotor/Injector)"));
  ((str "P0255"), (str "Injection Pump Fuel Metering Control 'A' Intermittent (Cam/Rotor/Injector)"));
  ((str "P0256"), (str "Injection Pump Fuel Metering Control 'B' (Cam/Rotor/Injector)"));
  ((str "P0257"), (str "Injection Pump Fuel Metering Control 'B' Range/Performance (Cam/Rotor/Injector)"));
  ((str "P0258"), (str "Injection Pump Fuel Metering Control 'B' Low (Cam/Rotor/Injector)"));
  ((str "P0259"), (str "Injection Pump Fuel Metering Control 'B' High (Cam/Rotor/Injector)"));
  ((str "P0260"), (str "Injection Pump Fuel Metering Control 'B' Intermittent (Cam/Rotor/Injector)"));
  ((str "P0261"), (str "Cylinder 1 Injector Circuit Low"));
  ((str "P0262"), (str "Cylinder 1 Injector Circuit High"));
  ((str "P0263"), (str "Cylinder 1 Contribution/Balance"));
  ((str "P0264"), (str "Cylinder 2 Injector Circuit Low"));
  ((str "P0265"), (str "Cylinder 2 Injector Circuit High"));
  ((str "P0266"), (str "Cylinder 2 Contribution/Balance"));
  ((str "P0267"), (str "Cylinder 3 Injector Circuit Low"));
  ((str "P0268"), (str "Cylinder 3 Injector Circuit High"));
  ((str "P0269"), (str "Cylinder 3 Contribution/Balance"));
  ((str "P0270"), (str "Cylinder 4 Injector Circuit Low"));
  ((str "P0271"), (str "Cylinder 4 Injector Circuit High"));
  ((str "P0272"), (str "Cylinder 4 Contribution/Balance"));
  ((str "P0273"), (str "Cylinder 5 Injector Circuit Low"));
  ((str "P0274"), (str "Cylinder 5 Injector Circuit High"));
  ((str "P0275"), (str "Cylinder 5 Contribution/Balance"));
  ((str "P0276"), (str "Cylinder 6 Injector Circuit Low"));
  ((str "P0277"), (str "Cylinder 6 Injector Circuit High"));
  ((str "P0278"), (str "Cylinder 6 Contribution/Balance"));
  ((str "P0279"), (str "Cylinder 7 Injector Circuit Low"));
  ((str "P0280"), (str "Cylinder 7 Injector Circuit High"));
  ((str "P0281"), (str "Cylinder 7 Contribution/Balance"));
  ((str "P0282"), (str "Cylinder 8 Injector Circuit Low"));
  ((str "P0283"), (str "Cylinder 8 Injector Circuit High"));
  ((str "P0284"), (str "Cylinder 8 Contribution/Balance"));
  ((str "P0285"), (str "Cylinder 9 Injector Circuit Low"));
  ((str "P0286"), (str "Cylinder 9 Injector Circuit High"));
  ((str "P0287"), (str "Cylinder 9 Contribution/Balance"));
  ((str "P0288"), (str "Cylinder 10 Injector Circuit Low"));
  ((str "P0289"), (str "Cylinder 10 Injector Circuit High"));
  ((str "P0290"), (str "Cylinder 10 Contribution/Balance"));
  ((str "P0291"), (str "Cylinder 11 Injector Circuit Low"));
  ((str "P0292"), (str "Cylinder 11 Injector Circuit High"));
  ((str "P0293"), (str "Cylinder 11 Contribution/Balance"));
  ((str "P0294"), (str "Cylinder 12 Injector Circuit Low"));
  ((str "P0295"), (str "Cylinder 12 Injector Circuit High"));
  ((str "P0296"), (str "Cylinder 12 Contribution/Balance"));
  ((str "P0297"), (str "Vehicle Overspeed Condition"));
  ((str "P0298"), (str "Engine Oil Over Temperature"));
  ((str "P0299"), (str "Turbo/Super Charger Underboost"));
  ((str "P0300"), (str "Random/Multiple Cylinder Misfire Detected"));
  ((str "P0301"), (str "Cylinder 1 Misfire Detected"));
  ((str "P0302"), (str "Cylinder 2 Misfire Detected"));
  ((str "P0303"), (str "Cylinder 3 Misfire Detected"));
  ((str "P0304"), (str "Cylinder 4 Misfire Detected"));
  ((str "P0305"), (str "Cylinder 5 Misfire Detected"));
  ((str "P0306"), (str "Cylinder 6 Misfire Detected"));
  ((str "P0307"), (str "Cylinder 7 Misfire Detected"));
  ((str "P0308"), (str "Cylinder 8 Misfire Detected"));
  ((str "P0309"), (str "Cylinder 9 Misfire Detected"));
  ((str "P0310"), (str "Cylinder 10 Misfire Detected"));
  ((str "P0311"), (str "Cylinder 11 Misfire Detected"));
  ((str "P0312"), (str "Cylinder 12 Misfire Detected"));
  ((str "P0313"), (str "Misfire Detected with Low Fuel"));
  ((str "P0314"), (str "Single Cylinder Misfire (Cylinder not Specified)"));
  ((str "P0315"), (str "Crankshaft Position System Variation Not Learned"));
  ((str "P0316"), (str "Engine Misfire Detected on Startup (First 1000 Revolutions)"));
  ((str "P0317"), (str "Rough Road Hardware Not Present"));
  ((str "P0318"), (str "Rough Road Sensor 'A' Signal Circuit"));
  ((str "P0319"), (str "Rough Road Sensor 'B'"));
  ((str "P0320"), (str "Ignition/Distributor Engine Speed Input Circuit"));
  ((str "P0321"), (str "Ignition/Distributor Engine Speed Input Circuit Range/Performance"));
  ((str "P0322"), (str "Ignition/Distributor Engine Speed Input Circuit No Signal"));
  ((str "P0323"), (str "Ignition/Distributor Engine Speed Input Circuit Intermittent"));
  ((str "P0324"), (str "Knock Control System Error"));
  ((str "P0325"), (str "Knock Sensor 1 Circuit"));
  ((str "P0326"), (str "Knock Sensor 1 Circuit Range/Performance"));
  ((str "P0327"), (str "Knock Sensor 1 Circuit Low"));
  ((str "P0328"), (str "Knock Sensor 1 Circuit High"));
  ((str "P0329"), (str "Knock Sensor 1 Circuit Input Intermittent"));
  ((str "P0330"), (str "Knock Sensor 2 Circuit"));
  ((str "P0331"), (str "Knock Sensor 2 Circuit Range/Performance"));
  ((str "P0332"), (str "Knock Sensor 2 Circuit Low"));
  ((str "P0333"), (str "Knock Sensor 2 Circuit High"));
  ((str "P0334"), (str "Knock Sensor 2 Circuit Input Intermittent"));
  ((str "P0335"), (str "Crankshaft Position Sensor 'A' Circuit"));
  ((str "P0336"), (str "Crankshaft Position Sensor 'A' Circuit Range/Performance"));
  ((str "P0337"), (str "Crankshaft Position Sensor 'A' Circuit Low"));
  ((str "P0338"), (str "Crankshaft Position Sensor 'A' Circuit High"));
  ((str "P0339"), (str "Crankshaft Position Sensor 'A' Circuit Intermittent"));
  ((str "P0340"), (str "Camshaft Position Sensor 'A' Circuit"));
  ((str "P0341"), (str "Camshaft Position Sensor 'A' Circuit Range/Performance"));
  ((str "P0342"), (str "Camshaft Position Sensor 'A' Circuit Low"));
  ((str "P0343"), (str "Camshaft Position Sensor 'A' Circuit High"));
  ((str "P0344"), (str "Camshaft Position Sensor 'A' Circuit Intermittent"));
  ((str "P0345"), (str "Camshaft Position Sensor 'A' Circuit"));
  ((str "P0346"), (str "Camshaft Position Sensor 'A' Circuit Range/Performance"));
  ((str "P0347"), (str "Camshaft Position Sensor 'A' Circuit Low"));
  ((str "P0348"), (str "Camshaft Position Sensor 'A' Circuit High"));
  ((str "P0349"), (str "Camshaft Position Sensor 'A' Circuit Intermittent"));
  ((str "P0350"), (str "Ignition Coil Primary/Secondary Circuit"));
  ((str "P0351"), (str "Ignition Coil 'A' Primary/Secondary Circuit"));
  ((str "P0352"), (str "Ignition Coil 'B' Primary/Secondary Circuit"));
  ((str "P0353"), (str "Ignition Coil 'C' Primary/Secondary Circuit"));
  ((str "P0354"), (str "Ignition Coil 'D' Primary/Secondary Circuit"));
  ((str "P0355"), (str "Ignition Coil 'E' Primary/Secondary Circuit"));
  ((str "P0356"), (str "Ignition Coil 'F' Primary/Secondary Circuit"));
  ((str "P0357"), (str "Ignition Coil 'G' Primary/Secondary Circuit"));
  ((str "P0358"), (str "Ignition Coil 'H' Primary/Secondary Circuit"));
  ((str "P0359"), (str "Ignition Coil 'I' Primary/Secondary Circuit"));
  ((str "P0360"), (str "Ignition Coil 'J' Primary/Secondary Circuit"));
  ((str "P0361"), (str "Ignition Coil 'K' Primary/Secondary Circuit"));
  ((str "P0362"), (str "Ignition Coil 'L' Primary/Secondary Circuit"));
  ((str "P0363"), (str "Misfire Detected - Fueling Disabled"));
  ((str "P0364"), (str "Reserved"));
  ((str "P0365"), (str "Camshaft Position Sensor 'B' Circuit"));
  ((str "P0366"), (str "Camshaft Position Sensor 'B' Circuit Range/Performance"));
  ((str "P0367"), (str "Camshaft Position Sensor 'B' Circuit Low"));
  ((str "P0368"), (str "Camshaft Position Sensor 'B' Circuit High"));
  ((str "P0369"), (str "Camshaft Position Sensor 'B' Circuit Intermittent"));
  ((str "P0370"), (str "Timing Reference High Resolution Signal 'A'"));
  ((str "P0371"), (str "Timing Reference High Resolution Signal 'A' Too Many Pulses"));
  ((str "P0372"), (str "Timing Reference High Resolution Signal 'A' Too Few Pulses"));
  ((str "P0373"), (str "Timing Reference High Resolution Signal 'A' Intermittent/Erratic Pulses"));
  ((str "P0374"), (str "Timing Reference High Resolution Signal 'A' No Pulse"));
  ((str "P0375"), (str "Timing Reference High Resolution Signal 'B'"));
  ((str "P0376"), (str "Timing Reference High Resolution Signal 'B' Too Many Pulses"));
  ((str "P0377"), (str "Timing Reference High Resolution Signal 'B' Too Few Pulses"));
  ((str "P0378"), (str "Timing Reference High Resolution Signal 'B' Intermittent/Erratic Pulses"));
  ((str "P0379"), (str "Timing Reference High Resolution Signal 'B' No Pulses"));
  ((str "P0380"), (str "Glow Plug/Heater Circuit 'A'"));
  ((str "P0381"), (str "Glow Plug/Heater Indicator Circuit"));
  ((str "P0382"), (str "Glow Plug/Heater Circuit 'B'"));
  ((str "P0383"), (str "Reserved by SAE J2012"));
  ((str "P0384"), (str "Reserved by SAE J2012"));
  ((str "P0385"), (str "Crankshaft Position Sensor 'B' Circuit"));
  ((str "P0386"), (str "Crankshaft Position Sensor 'B' Circuit Range/Performance"));
  ((str "P0387"), (str "Crankshaft Position Sensor 'B' Circuit Low"));
  ((str "P0388"), (str "Crankshaft Position Sensor 'B' Circuit High"));
  ((str "P0389"), (str "Crankshaft Position Sensor 'B' Circuit Intermittent"));
  ((str "P0390"), (str "Camshaft Position Sensor 'B' Circuit"));
  ((str "P0391"), (str "Camshaft Position Sensor 'B' Circuit Range/Performance"));
  ((str "P0392"), (str "Camshaft Position Sensor 'B' Circuit Low"));
  ((str "P0393"), (str "Camshaft Position Sensor 'B' Circuit High"));
  ((str "P0394"), (str "Camshaft Position Sensor 'B' Circuit Intermittent"));
  ((str "P0400"), (str "Exhaust Gas Recirculation Flow"));
  ((str "P0401"), (str "Exhaust Gas Recirculation Flow Insufficient Detected"));
  ((str "P0402"), (str "Exhaust Gas Recirculation Flow Excessive Detected"));
  ((str "P0403"), (str "Exhaust Gas Recirculation Control Circuit"));
  ((str "P0404"), (str "Exhaust Gas Recirculation Control Circuit Range/Performance"));
  ((str "P0405"), (str "Exhaust Gas Recirculation Sensor 'A' Circuit Low"));
  ((str "P0406"), (str "Exhaust Gas Recirculation Sensor 'A' Circuit High"));
  ((str "P0407"), (str "Exhaust Gas Recirculation Sensor 'B' Circuit Low"));
  ((str "P0408"), (str "Exhaust Gas Recirculation Sensor 'B' Circuit High"));
  ((str "P0409"), (str "Exhaust Gas Recirculation Sensor 'A' Circuit"));
  ((str "P0410"), (str "Secondary Air Injection System"));
  ((str "P0411"), (str "Secondary Air Injection System Incorrect Flow Detected"));
  ((str "P0412"), (str "Secondary Air Injection System Switching Valve 'A' Circuit"));
  ((str "P0413"), (str "Secondary Air Injection System Switching Valve 'A' Circuit Open"));
  ((str "P0414"), (str "Secondary Air Injection System Switching Valve 'A' Circuit Shorted"));
  ((str "P0415"), (str "Secondary Air Injection System Switching Valve 'B' Circuit"));
  ((str "P0416"), (str "Secondary Air Injection System Switching Valve 'B' Circuit Open"));
  ((str "P0417"), (str "Secondary Air Injection System Switching Valve 'B' Circuit Shorted"));
  ((str "P0418"), (str "Secondary Air Injection System Control 'A' Circuit"));
  ((str "P0419"), (str "Secondary Air Injection System Control 'B' Circuit"));
  ((str "P0420"), (str "Catalyst System Efficiency Below Threshold"));
  ((str "P0421"), (str "Warm Up Catalyst Efficiency Below Threshold"));
  ((str "P0422"), (str "Main Catalyst Efficiency Below Threshold"));
  ((str "P0423"), (str "Heated Catalyst Efficiency Below Threshold"));
  ((str "P0424"), (str "Heated Catalyst Temperature Below Threshold"));
  ((str "P0425"), (str "Catalyst Temperature Sensor"));
  ((str "P0426"), (str "Catalyst Temperature Sensor Range/Performance"));
  ((str "P0427"), (str "Catalyst Temperature Sensor Low"));
  ((str "P0428"), (str "Catalyst Temperature Sensor High"));
  ((str "P0429"), (str "Catalyst Heater Control Circuit"));
  ((str "P0430"), (str "Catalyst System Efficiency Below Threshold"));
  ((str "P0431"), (str "Warm Up Catalyst Efficiency Below Threshold"));
  ((str "P0432"), (str "Main Catalyst Efficiency Below Threshold"));
  ((str "P0433"), (str "Heated Catalyst Efficiency Below Threshold"));
  ((str "P0434"), (str "Heated Catalyst Temperature Below Threshold"));
  ((str "P0435"), (str "Catalyst Temperature Sensor"));
  ((str "P0436"), (str "Catalyst Temperature Sensor Range/Performance"));
  ((str "P0437"), (str "Catalyst Temperature Sensor Low"));
  ((str "P0438"), (str "Catalyst Temperature Sensor High"));
  ((str "P0439"), (str "Catalyst Heater Control Circuit"));
  ((str "P0440"), (str "Evaporative Emission System"));
  ((str "P0441"), (str "Evaporative Emission System Incorrect Purge Flow"));
  ((str "P0442"), (str "Evaporative Emission System Leak Detected (small leak)"));
  ((str "P0443"), (str "Evaporative Emission System Purge Control Valve Circuit"));
  ((str "P0444"), (str "Evaporative Emission System Purge Control Valve Circuit Open"));
  ((str "P0445"), (str "Evaporative Emission System Purge Control Valve Circuit Shorted"));
  ((str "P0446"), (str "Evaporative Emission System Vent Control Circuit"));
  ((str "P0447"), (str "Evaporative Emission System Vent Control Circuit Open"));
  ((str "P0448"), (str "Evaporative Emission System Vent Control Circuit Shorted"));
  ((str "P0449"), (str "Evaporative Emission System Vent Valve/Solenoid Circuit"));
  ((str "P0450"), (str "Evaporative Emission System Pressure Sensor/Switch"));
  ((str "P0451"), (str "Evaporative Emission System Pressure Sensor/Switch Range/Performance"));
  ((str "P0452"), (str "Evaporative Emission System Pressure Sensor/Switch Low"));
  ((str "P0453"), (str "Evaporative Emission System Pressure Sensor/Switch High"));
  ((str "P0454"), (str "Evaporative Emission System Pressure Sensor/Switch Intermittent"));
  ((str "P0455"), (str "Evaporative Emission System Leak Detected (large leak)"));
  ((str "P0456"), (str "Evaporative Emission System Leak Detected (very small leak)"));
  ((str "P0457"), (str "Evaporative Emission System Leak Detected (fuel cap loose/off)"));
  ((str "P0458"), (str "Evaporative Emission System Purge Control Valve Circuit Low"));
  ((str "P0459"), (str "Evaporative Emission System Purge Control Valve Circuit High"));
  ((str "P0460"), (str "Fuel Level Sensor 'A' Circuit"));
  ((str "P0461"), (str "Fuel Level Sensor 'A' Circuit Range/Performance"));
  ((str "P0462"), (str "Fuel Level Sensor 'A' Circuit Low"));
  ((str "P0463"), (str "Fuel Level Sensor 'A' Circuit High"));
  ((str "P0464"), (str "Fuel Level Sensor 'A' Circuit Intermittent"));
  ((str "P0465"), (str "EVAP Purge Flow Sensor Circuit"));
  ((str "P0466"), (str "EVAP Purge Flow Sensor Circuit Range/Performance"));
  ((str "P0467"), (str "EVAP Purge Flow Sensor Circuit Low"));
  ((str "P0468"), (str "EVAP Purge Flow Sensor Circuit High"));
  ((str "P0469"), (str "EVAP Purge Flow Sensor Circuit Intermittent"));
  ((str "P0470"), (str "Exhaust Pressure Sensor"));
  ((str "P0471"), (str "Exhaust Pressure Sensor Range/Performance"));
  ((str "P0472"), (str "Exhaust Pressure Sensor Low"));
  ((str "P0473"), (str "Exhaust Pressure Sensor High"));
  ((str "P0474"), (str "Exhaust Pressure Sensor Intermittent"));
  ((str "P0475"), (str "Exhaust Pressure Control Valve"));
  ((str "P0476"), (str "Exhaust Pressure Control Valve Range/Performance"));
  ((str "P0477"), (str "Exhaust Pressure Control Valve Low"));
  ((str "P0478"), (str "Exhaust Pressure Control Valve High"));
  ((str "P0479"), (str "Exhaust Pressure Control Valve Intermittent"));
  ((str "P0480"), (str "Fan 1 Control Circuit"));
  ((str "P0481"), (str "Fan 2 Control Circuit"));
  ((str "P0482"), (str "Fan 3 Control Circuit"));
  ((str "P0483"), (str "Fan Rationality Check"));
  ((str "P0484"), (str "Fan Circuit Over Current"));
  ((str "P0485"), (str "Fan Power/Ground Circuit"));
  ((str "P0486"), (str "Exhaust Gas Recirculation Sensor 'B' Circuit"));
  ((str "P0487"), (str "Exhaust Gas Recirculation Throttle Position Control Circuit"));
  ((str "P0488"), (str "Exhaust Gas Recirculation Throttle Position Control Range/Performance"));
  ((str "P0489"), (str "Exhaust Gas Recirculation Control Circuit Low"));
  ((str "P0490"), (str "Exhaust Gas Recirculation Control Circuit High"));
  ((str "P0491"), (str "Secondary Air Injection System Insufficient Flow"));
  ((str "P0492"), (str "Secondary Air Injection System Insufficient Flow"));
  ((str "P0493"), (str "Fan Overspeed"));
  ((str "P0494"), (str "Fan Speed Low"));
  ((str "P0495"), (str "Fan Speed High"));
  ((str "P0496"), (str "Evaporative Emission System High Purge Flow"));
  ((str "P0497"), (str "Evaporative Emission System Low Purge Flow"));
  ((str "P0498"), (str "Evaporative Emission System Vent Valve Control Circuit Low"));
  ((str "P0499"), (str "Evaporative Emission System Vent Valve Control Circuit High"));
  ((str "P0500"), (str "Vehicle Speed Sensor 'A'"));
  ((str "P0501"), (str "Vehicle Speed Sensor 'A' Range/Performance"));
  ((str "P0502"), (str "Vehicle Speed Sensor 'A' Circuit Low Input"));
  ((str "P0503"), (str "Vehicle Speed Sensor 'A' Intermittent/Erratic/High"));
  ((str "P0504"), (str "Brake Switch 'A'/'B' Correlation"));
  ((str "P0505"), (str "Idle Air Control System"));
  ((str "P0506"), (str "Idle Air Control System RPM Lower Than Expected"));
  ((str "P0507"), (str "Idle Air Control System RPM Higher Than Expected"));
  ((str "P0508"), (str "Idle Air Control System Circuit Low"));
  ((str "P0509"), (str "Idle Air Control System Circuit High"));
  ((str "P0510"), (str "Closed Throttle Position Switch"));
  ((str "P0511"), (str "Idle Air Control Circuit"));
  ((str "P0512"), (str "Starter Request Circuit"));
  ((str "P0513"), (str "Incorrect Immobilizer Key"));
  ((str "P0514"), (str "Battery Temperature Sensor Circuit Range/Performance"));
  ((str "P0515"), (str "Battery Temperature Sensor Circuit"));
  ((str "P0516"), (str "Battery Temperature Sensor Circuit Low"));
  ((str "P0517"), (str "Battery Temperature Sensor Circuit High"));
  ((str "P0518"), (str "Idle Air Control Circuit Intermittent"));
  ((str "P0519"), (str "Idle Air Control System Performance"));
  ((str "P0520"), (str "Engine Oil Pressure Sensor/Switch Circuit"));
  ((str "P0521"), (str "Engine Oil Pressure Sensor/Switch Range/Performance"));
  ((str "P0522"), (str "Engine Oil Pressure Sensor/Switch Low Voltage"));
  ((str "P0523"), (str "Engine Oil Pressure Sensor/Switch High Voltage"));
  ((str "P0524"), (str "Engine Oil Pressure Too Low"));
  ((str "P0525"), (str "Cruise Control Servo Control Circuit Range/Performance"));
  ((str "P0526"), (str "Fan Speed Sensor Circuit"));
  ((str "P0527"), (str "Fan Speed Sensor Circuit Range/Performance"));
  ((str "P0528"), (str "Fan Speed Sensor Circuit No Signal"));
  ((str "P0529"), (str "Fan Speed Sensor Circuit Intermittent"));
  ((str "P0530"), (str "A/C Refrigerant Pressure Sensor 'A' Circuit"));
  ((str "P0531"), (str "A/C Refrigerant Pressure Sensor 'A' Circuit Range/Performance"));
  ((str "P0532"), (str "A/C Refrigerant Pressure Sensor 'A' Circuit Low"));
  ((str "P0533"), (str "A/C Refrigerant Pressure Sensor 'A' Circuit High"));
  ((str "P0534"), (str "Air Conditioner Refrigerant Charge Loss"));
  ((str "P0535"), (str "A/C Evaporator Temperature Sensor Circuit"));
  ((str "P0536"), (str "A/C Evaporator Temperature Sensor Circuit Range/Performance"));
  ((str "P0537"), (str "A/C Evaporator Temperature Sensor Circuit Low"));
  ((str "P0538"), (str "A/C Evaporator Temperature Sensor Circuit High"));
  ((str "P0539"), (str "A/C Evaporator Temperature Sensor Circuit Intermittent"));
  ((str "P0540"), (str "Intake Air Heater 'A' Circuit"));
  ((str "P0541"), (str "Intake Air Heater 'A' Circuit Low"));
  ((str "P0542"), (str "Intake Air Heater 'A' Circuit High"));
  ((str "P0543"), (str "Intake Air Heater 'A' Circuit Open"));
  ((str "P0544"), (str "Exhaust Gas Temperature Sensor Circuit"));
  ((str "P0545"), (str "Exhaust Gas Temperature Sensor Circuit Low"));
  ((str "P0546"), (str "Exhaust Gas Temperature Sensor Circuit High"));
  ((str "P0547"), (str "Exhaust Gas Temperature Sensor Circuit"));
  ((str "P0548"), (str "Exhaust Gas Temperature Sensor Circuit Low"));
  ((str "P0549"), (str "Exhaust Gas Temperature Sensor Circuit High"));
  ((str "P0550"), (str "Power Steering Pressure Sensor/Switch Circuit"));
  ((str "P0551"), (str "Power Steering Pressure Sensor/Switch Circuit Range/Performance"));
  ((str "P0552"), (str "Power Steering Pressure Sensor/Switch Circuit Low Input"));
  ((str "P0553"), (str "Power Steering Pressure Sensor/Switch Circuit High Input"));
  ((str "P0554"), (str "Power Steering Pressure Sensor/Switch Circuit Intermittent"));
  ((str "P0555"), (str "Brake Booster Pressure Sensor Circuit"));
  ((str "P0556"), (str "Brake Booster Pressure Sensor Circuit Range/Performance"));
  ((str "P0557"), (str "Brake Booster Pressure Sensor Circuit Low Input"));
  ((str "P0558"), (str "Brake Booster Pressure Sensor Circuit High Input"));
  ((str "P0559"), (str "Brake Booster Pressure Sensor Circuit Intermittent"));
  ((str "P0560"), (str "System Voltage"));
  ((str "P0561"), (str "System Voltage Unstable"));
  ((str "P0562"), (str "System Voltage Low"));
  ((str "P0563"), (str "System Voltage High"));
  ((str "P0564"), (str "Cruise Control Multi-Function Input 'A' Circuit"));
  ((str "P0565"), (str "Cruise Control On Signal"));
  ((str "P0566"), (str "Cruise Control Off Signal"));
  ((str "P0567"), (str "Cruise Control Resume Signal"));
  ((str "P0568"), (str "Cruise Control Set Signal"));
  ((str "P0569"), (str "Cruise Control Coast Signal"));
  ((str "P0570"), (str "Cruise Control Accelerate Signal"));
  ((str "P0571"), (str "Brake Switch 'A' Circuit"));
  ((str "P0572"), (str "Brake Switch 'A' Circuit Low"));
  ((str "P0573"), (str "Brake Switch 'A' Circuit High"));
  ((str "P0574"), (str "Cruise Control System - Vehicle Speed Too High"));
  ((str "P0575"), (str "Cruise Control Input Circuit"));
  ((str "P0576"), (str "Cruise Control Input Circuit Low"));
  ((str "P0577"), (str "Cruise Control Input Circuit High"));
  ((str "P0578"), (str "Cruise Control Multi-Function Input 'A' Circuit Stuck"));
  ((str "P0579"), (str "Cruise Control Multi-Function Input 'A' Circuit Range/Performance"));
  ((str "P0580"), (str "Cruise Control Multi-Function Input 'A' Circuit Low"));
  ((str "P0581"), (str "Cruise Control Multi-Function Input 'A' Circuit High"));
  ((str "P0582"), (str "Cruise Control Vacuum Control Circuit/Open"));
  ((str "P0583"), (str "Cruise Control Vacuum Control Circuit Low"));
  ((str "P0584"), (str "Cruise Control Vacuum Control Circuit High"));
  ((str "P0585"), (str "Cruise Control Multi-Function Input 'A'/'B' Correlation"));
  ((str "P0586"), (str "Cruise Control Vent Control Circuit/Open"));
  ((str "P0587"), (str "Cruise Control Vent Control Circuit Low"));
  ((str "P0588"), (str "Cruise Control Vent Control Circuit High"));
  ((str "P0589"), (str "Cruise Control Multi-Function Input 'B' Circuit"));
  ((str "P0590"), (str "Cruise Control Multi-Function Input 'B' Circuit Stuck"));
  ((str "P0591"), (str "Cruise Control Multi-Function Input 'B' Circuit Range/Performance"));
  ((str "P0592"), (str "Cruise Control Multi-Function Input 'B' Circuit Low"));
  ((str "P0593"), (str "Cruise Control Multi-Function Input 'B' Circuit High"));
  ((str "P0594"), (str "Cruise Control Servo Control Circuit/Open"));
  ((str "P0595"), (str "Cruise Control Servo Control Circuit Low"));
  ((str "P0596"), (str "Cruise Control Servo Control Circuit High"));
  ((str "P0597"), (str "Thermostat Heater Control Circuit/Open"));
  ((str "P0598"), (str "Thermostat Heater Control Circuit Low"));
  ((str "P0599"), (str "Thermostat Heater Control Circuit High"));
  ((str "P0600"), (str "Serial Communication Link"));
  ((str "P0601"), (str "Internal Control Module Memory Check Sum Error"));
  ((str "P0602"), (str "Control Module Programming Error"));
  ((str "P0603"), (str "Internal Control Module Keep Alive Memory (KAM) Error"));
  ((str "P0604"), (str "Internal Control Module Random Access Memory (RAM) Error"));
  ((str "P0605"), (str "Internal Control Module Read Only Memory (ROM) Error"));
  ((str "P0606"), (str "ECM/PCM Processor"));
  ((str "P0607"), (str "Control Module Performance"));
  ((str "P0608"), (str "Control Module VSS Output 'A'"));
  ((str "P0609"), (str "Control Module VSS Output 'B'"));
  ((str "P0610"), (str "Control Module Vehicle Options Error"));
  ((str "P0611"), (str "Fuel Injector Control Module Performance"));
  ((str "P0612"), (str "Fuel Injector Control Module Relay Control"));
  ((str "P0613"), (str "TCM Processor"));
  ((str "P0614"), (str "ECM / TCM Incompatible"));
  ((str "P0615"), (str "Starter Relay Circuit"));
  ((str "P0616"), (str "Starter Relay Circuit Low"));
  ((str "P0617"), (str "Starter Relay Circuit High"));
  ((str "P0618"), (str "Alternative Fuel Control Module KAM Error"));
  ((str "P0619"), (str "Alternative Fuel Control Module RAM/ROM Error"));
  ((str "P0620"), (str "Generator Control Circuit"));
  ((str "P0621"), (str "Generator Lamp/L Terminal Circuit"));
  ((str "P0622"), (str "Generator Field/F Terminal Circuit"));
  ((str "P0623"), (str "Generator Lamp Control Circuit"));
  ((str "P0624"), (str "Fuel Cap Lamp Control Circuit"));
  ((str "P0625"), (str "Generator Field/F Terminal Circuit Low"));
  ((str "P0626"), (str "Generator Field/F Terminal Circuit High"));
  ((str "P0627"), (str "Fuel Pump 'A' Control Circuit /Open"));
  ((str "P0628"), (str "Fuel Pump 'A' Control Circuit Low"));
  ((str "P0629"), (str "Fuel Pump 'A' Control Circuit High"));
  ((str "P0630"), (str "VIN Not Programmed or Incompatible - ECM/PCM"));
  ((str "P0631"), (str "VIN Not Programmed or Incompatible - TCM"));
  ((str "P0632"), (str "Odometer Not Programmed - ECM/PCM"));
  ((str "P0633"), (str "Immobilizer Key Not Programmed - ECM/PCM"));
  ((str "P0634"), (str "PCM/ECM/TCM Internal Temperature Too High"));
  ((str "P0635"), (str "Power Steering Control Circuit"));
  ((str "P0636"), (str "Power Steering Control Circuit Low"));
  ((str "P0637"), (str "Power Steering Control Circuit High"));
  ((str "P0638"), (str "Throttle Actuator Control Range/Performance"));
  ((str "P0639"), (str "Throttle Actuator Control Range/Performance"));
  ((str "P0640"), (str "Intake Air Heater Control Circuit"));
  ((str "P0641"), (str "Sensor Reference Voltage 'A' Circuit/Open"));
  ((str "P0642"), (str "Sensor Reference Voltage 'A' Circuit Low"));
  ((str "P0643"), (str "Sensor Reference Voltage 'A' Circuit High"));
  ((str "P0644"), (str "Driver Display Serial Communication Circuit"));
  ((str "P0645"), (str "A/C Clutch Relay Control Circuit"));
  ((str "P0646"), (str "A/C Clutch Relay Control Circuit Low"));
  ((str "P0647"), (str "A/C Clutch Relay Control Circuit High"));
  ((str "P0648"), (str "Immobilizer Lamp Control Circuit"));
  ((str "P0649"), (str "Speed Control Lamp Control Circuit"));
  ((str "P0650"), (str "Malfunction Indicator Lamp (MIL) Control Circuit"));
  ((str "P0651"), (str "Sensor Reference Voltage 'B' Circuit/Open"));
  ((str "P0652"), (str "Sensor Reference Voltage 'B' Circuit Low"));
  ((str "P0653"), (str "Sensor Reference Voltage 'B' Circuit High"));
  ((str "P0654"), (str "Engine RPM Output Circuit"));
  ((str "P0655"), (str "Engine Hot Lamp Output Control Circuit"));
  ((str "P0656"), (str "Fuel Level Output Circuit"));
  ((str "P0657"), (str "Actuator Supply Voltage 'A' Circuit/Open"));
  ((str "P0658"), (str "Actuator Supply Voltage 'A' Circuit Low"));
  ((str "P0659"), (str "Actuator Supply Voltage 'A' Circuit High"));
  ((str "P0660"), (str "Intake Manifold Tuning Valve Control Circuit/Open"));
  ((str "P0661"), (str "Intake Manifold Tuning Valve Control Circuit Low"));
  ((str "P0662"), (str "Intake Manifold Tuning Valve Control Circuit High"));
  ((str "P0663"), (str "Intake Manifold Tuning Valve Control Circuit/Open"));
  ((str "P0664"), (str "Intake Manifold Tuning Valve Control Circuit Low"));
  ((str "P0665"), (str "Intake Manifold Tuning Valve Control Circuit High"));
  ((str "P0666"), (str "PCM/ECM/TCM Internal Temperature Sensor Circuit"));
  ((str "P0667"), (str "PCM/ECM/TCM Internal Temperature Sensor Range/Performance"));
  ((str "P0668"), (str "PCM/ECM/TCM Internal Temperature Sensor Circuit Low"));
  ((str "P0669"), (str "PCM/ECM/TCM Internal Temperature Sensor Circuit High"));
  ((str "P0670"), (str "Glow Plug Module Control Circuit"));
  ((str "P0671"), (str "Cylinder 1 Glow Plug Circuit"));
  ((str "P0672"), (str "Cylinder 2 Glow Plug Circuit"));
  ((str "P0673"), (str "Cylinder 3 Glow Plug Circuit"));
  ((str "P0674"), (str "Cylinder 4 Glow Plug Circuit"));
  ((str "P0675"), (str "Cylinder 5 Glow Plug Circuit"));
  ((str "P0676"), (str "Cylinder 6 Glow Plug Circuit"));
  ((str "P0677"), (str "Cylinder 7 Glow Plug Circuit"));
  ((str "P0678"), (str "Cylinder 8 Glow Plug Circuit"));
  ((str "P0679"), (str "Cylinder 9 Glow Plug Circuit"));
  ((str "P0680"), (str "Cylinder 10 Glow Plug Circuit"));
  ((str "P0681"), (str "Cylinder 11 Glow Plug Circuit"));
  ((str "P0682"), (str "Cylinder 12 Glow Plug Circuit"));
  ((str "P0683"), (str "Glow Plug Control Module to PCM Communication Circuit"));
  ((str "P0684"), (str "Glow Plug Control Module to PCM Communication Circuit Range/Performance"));
  ((str "P0685"), (str "ECM/PCM Power Relay Control Circuit /Open"));
  ((str "P0686"), (str "ECM/PCM Power Relay Control Circuit Low"));
  ((str "P0687"), (str "ECM/PCM Power Relay Control Circuit High"));
  ((str "P0688"), (str "ECM/PCM Power Relay Sense Circuit /Open"));
  ((str "P0689"), (str "ECM/PCM Power Relay Sense Circuit Low"));
  ((str "P0690"), (str "ECM/PCM Power Relay Sense Circuit High"));
  ((str "P0691"), (str "Fan 1 Control Circuit Low"));
  ((str "P0692"), (str "Fan 1 Control Circuit High"));
  ((str "P0693"), (str "Fan 2 Control Circuit Low"));
  ((str "P0694"), (str "Fan 2 Control Circuit High"));
  ((str "P0695"), (str "Fan 3 Control Circuit Low"));
  ((str "P0696"), (str "Fan 3 Control Circuit High"));
  ((str "P0697"), (str "Sensor Reference Voltage 'C' Circuit/Open"));
  ((str "P0698"), (str "Sensor Reference Voltage 'C' Circuit Low"));
  ((str "P0699"), (str "Sensor Reference Voltage 'C' Circuit High"));
  ((str "P0700"), (str "Transmission Control System (MIL Request)"));
  ((str "P0701"), (str "Transmission Control System Range/Performance"));
  ((str "P0702"), (str "Transmission Control System Electrical"));
  ((str "P0703"), (str "Brake Switch 'B' Circuit"));
  ((str "P0704"), (str "Clutch Switch Input Circuit Malfunction"));
  ((str "P0705"), (str "Transmission Range Sensor Circuit Malfunction (PRNDL Input)"));
  ((str "P0706"), (str "Transmission Range Sensor Circuit Range/Performance"));
  ((str "P0707"), (str "Transmission Range Sensor Circuit Low"));
  ((str "P0708"), (str "Transmission Range Sensor Circuit High"));
  ((str "P0709"), (str "Transmission Range Sensor Circuit Intermittent"));
  ((str "P0710"), (str "Transmission Fluid Temperature Sensor 'A' Circuit"));
  ((str "P0711"), (str "Transmission Fluid Temperature Sensor 'A' Circuit Range/Performance"));
  ((str "P0712"), (str "Transmission Fluid Temperature Sensor 'A' Circuit Low"));
  ((str "P0713"), (str "Transmission Fluid Temperature Sensor 'A' Circuit High"));
  ((str "P0714"), (str "Transmission Fluid Temperature Sensor 'A' Circuit Intermittent"));
  ((str "P0715"), (str "Input/Turbine Speed Sensor 'A' Circuit"));
  ((str "P0716"), (str "Input/Turbine Speed Sensor 'A' Circuit Range/Performance"));
  ((str "P0717"), (str "Input/Turbine Speed Sensor 'A' Circuit No Signal"));
  ((str "P0718"), (str "Input/Turbine Speed Sensor 'A' Circuit Intermittent"));
  ((str "P0719"), (str "Brake Switch 'B' Circuit Low"));
  ((str "P0720"), (str "Output Speed Sensor Circuit"));
  ((str "P0721"), (str "Output Speed Sensor Circuit Range/Performance"));
  ((str "P0722"), (str "Output Speed Sensor Circuit No Signal"));
  ((str "P0723"), (str "Output Speed Sensor Circuit Intermittent"));
  ((str "P0724"), (str "Brake Switch 'B' Circuit High"));
  ((str "P0725"), (str "Engine Speed Input Circuit"));
  ((str "P0726"), (str "Engine Speed Input Circuit Range/Performance"));
  ((str "P0727"), (str "Engine Speed Input Circuit No Signal"));
  ((str "P0728"), (str "Engine Speed Input Circuit Intermittent"));
  ((str "P0729"), (str "Gear 6 Incorrect Ratio"));
  ((str "P0730"), (str "Incorrect Gear Ratio"));
  ((str "P0731"), (str "Gear 1 Incorrect Ratio"));
  ((str "P0732"), (str "Gear 2 Incorrect Ratio"));
  ((str "P0733"), (str "Gear 3 Incorrect Ratio"));
  ((str "P0734"), (str "Gear 4 Incorrect Ratio"));
  ((str "P0735"), (str "Gear 5 Incorrect Ratio"));
  ((str "P0736"), (str "Reverse Incorrect Ratio"));
  ((str "P0737"), (str "TCM Engine Speed Output Circuit"));
  ((str "P0738"), (str "TCM Engine Speed Output Circuit Low"));
  ((str "P0739"), (str "TCM Engine Speed Output Circuit High"));
  ((str "P0740"), (str "Torque Converter Clutch Circuit/Open"));
  ((str "P0741"), (str "Torque Converter Clutch Circuit Performance or Stuck Off"));
  ((str "P0742"), (str "Torque Converter Clutch Circuit Stuck On"));
  ((str "P0743"), (str "Torque Converter Clutch Circuit Electrical"));
  ((str "P0744"), (str "Torque Converter Clutch Circuit Intermittent"));
  ((str "P0745"), (str "Pressure Control Solenoid 'A'"));
  ((str "P0746"), (str "Pressure Control Solenoid 'A' Performance or Stuck Off"));
  ((str "P0747"), (str "Pressure Control Solenoid 'A' Stuck On"));
  ((str "P0748"), (str "Pressure Control Solenoid 'A' Electrical"));
  ((str "P0749"), (str "Pressure Control Solenoid 'A' Intermittent"));
  ((str "P0750"), (str "Shift Solenoid 'A'"));
  ((str "P0751"), (str "Shift Solenoid 'A' Performance or Stuck Off"));
  ((str "P0752"), (str "Shift Solenoid 'A' Stuck On"));
  ((str "P0753"), (str "Shift Solenoid 'A' Electrical"));
  ((str "P0754"), (str "Shift Solenoid 'A' Intermittent"));
  ((str "P0755"), (str "Shift Solenoid 'B'"));
  ((str "P0756"), (str "Shift Solenoid 'B' Performance or Stuck Off"));
  ((str "P0757"), (str "Shift Solenoid 'B' Stuck On"));
  ((str "P0758"), (str "Shift Solenoid 'B' Electrical"));
  ((str "P0759"), (str "Shift Solenoid 'B' Intermittent"));
  ((str "P0760"), (str "Shift Solenoid 'C'"));
  ((str "P0761"), (str "Shift Solenoid 'C' Performance or Stuck Off"));
  ((str "P0762"), (str "Shift Solenoid 'C' Stuck On"));
  ((str "P0763"), (str "Shift Solenoid 'C' Electrical"));
  ((str "P0764"), (str "Shift Solenoid 'C' Intermittent"));
  ((str "P0765"), (str "Shift Solenoid 'D'"));
  ((str "P0766"), (str "Shift Solenoid 'D' Performance or Stuck Off"));
  ((str "P0767"), (str "Shift Solenoid 'D' Stuck On"));
  ((str "P0768"), (str "Shift Solenoid 'D' Electrical"));
  ((str "P0769"), (str "Shift Solenoid 'D' Intermittent"));
  ((str "P0770"), (str "Shift Solenoid 'E'"));
  ((str "P0771"), (str "Shift Solenoid 'E' Performance or Stuck Off"));
  ((str "P0772"), (str "Shift Solenoid 'E' Stuck On"));
  ((str "P0773"), (str "Shift Solenoid 'E' Electrical"));
  ((str "P0774"), (str "Shift Solenoid 'E' Intermittent"));
  ((str "P0775"), (str "Pressure Control Solenoid 'B'"));
  ((str "P0776"), (str "Pressure Control Solenoid 'B' Performance or Stuck off"));
  ((str "P0777"), (str "Pressure Control Solenoid 'B' Stuck On"));
  ((str "P0778"), (str "Pressure Control Solenoid 'B' Electrical"));
  ((str "P0779"), (str "Pressure Control Solenoid 'B' Intermittent"));
  ((str "P0780"), (str "Shift Error"));
  ((str "P0781"), (str "1-2 Shift"));
  ((str "P0782"), (str "2-3 Shift"));
  ((str "P0783"), (str "3-4 Shift"));
  ((str "P0784"), (str "4-5 Shift"));
  ((str "P0785"), (str "Shift/Timing Solenoid"));
  ((str "P0786"), (str "Shift/Timing Solenoid Range/Performance"));
  ((str "P0787"), (str "Shift/Timing Solenoid Low"));
  ((str "P0788"), (str "Shift/Timing Solenoid High"));
  ((str "P0789"), (str "Shift/Timing Solenoid Intermittent"));
  ((str "P0790"), (str "Normal/Performance Switch Circuit"));
  ((str "P0791"), (str "Intermediate Shaft Speed Sensor 'A' Circuit"));
  ((str "P0792"), (str "Intermediate Shaft Speed Sensor 'A' Circuit Range/Performance"));
  ((str "P0793"), (str "Intermediate Shaft Speed Sensor 'A' Circuit No Signal"));
  ((str "P0794"), (str "Intermediate Shaft Speed Sensor 'A' Circuit Intermittent"));
  ((str "P0795"), (str "Pressure Control Solenoid 'C'"));
  ((str "P0796"), (str "Pressure Control Solenoid 'C' Performance or Stuck off"));
  ((str "P0797"), (str "Pressure Control Solenoid 'C' Stuck On"));
  ((str "P0798"), (str "Pressure Control Solenoid 'C' Electrical"));
  ((str "P0799"), (str "Pressure Control Solenoid 'C' Intermittent"));
  ((str "P0800"), (str "Transfer Case Control System (MIL Request)"));
  ((str "P0801"), (str "Reverse Inhibit Control Circuit"));
  ((str "P0802"), (str "Transmission Control System MIL Request Circuit/Open"));
  ((str "P0803"), (str "1-4 Upshift (Skip Shift) Solenoid Control Circuit"));
  ((str "P0804"), (str "1-4 Upshift (Skip Shift) Lamp Control Circuit"));
  ((str "P0805"), (str "Clutch Position Sensor Circuit"));
  ((str "P0806"), (str "Clutch Position Sensor Circuit Range/Performance"));
  ((str "P0807"), (str "Clutch Position Sensor Circuit Low"));
  ((str "P0808"), (str "Clutch Position Sensor Circuit High"));
  ((str "P0809"), (str "Clutch Position Sensor Circuit Intermittent"));
  ((str "P0810"), (str "Clutch Position Control Error"));
  ((str "P0811"), (str "Excessive Clutch Slippage"));
  ((str "P0812"), (str "Reverse Input Circuit"));
  ((str "P0813"), (str "Reverse Output Circuit"));
  ((str "P0814"), (str "Transmission Range Display Circuit"));
  ((str "P0815"), (str "Upshift Switch Circuit"));
  ((str "P0816"), (str "Downshift Switch Circuit"));
  ((str "P0817"), (str "Starter Disable Circuit"));
  ((str "P0818"), (str "Driveline Disconnect Switch Input Circuit"));
  ((str "P0819"), (str "Up and Down Shift Switch to Transmission Range Correlation"));
  ((str "P0820"), (str "Gear Lever X-Y Position Sensor Circuit"));
  ((str "P0821"), (str "Gear Lever X Position Circuit"));
  ((str "P0822"), (str "Gear Lever Y Position Circuit"));
  ((str "P0823"), (str "Gear Lever X Position Circuit Intermittent"));
  ((str "P0824"), (str "Gear Lever Y Position Circuit Intermittent"));
  ((str "P0825"), (str "Gear Lever Push-Pull Switch (Shift Anticipate)"));
  ((str "P0826"), (str "Up and Down Shift Switch Circuit"));
  ((str "P0827"), (str "Up and Down Shift Switch Circuit Low"));
  ((str "P0828"), (str "Up and Down Shift Switch Circuit High"));
  ((str "P0829"), (str "5-6 Shift"));
  ((str "P0830"), (str "Clutch Pedal Switch 'A' Circuit"));
  ((str "P0831"), (str "Clutch Pedal Switch 'A' Circuit Low"));
  ((str "P0832"), (str "Clutch Pedal Switch 'A' Circuit High"));
  ((str "P0833"), (str "Clutch Pedal Switch 'B' Circuit"));
  ((str "P0834"), (str "Clutch Pedal Switch 'B' Circuit Low"));
  ((str "P0835"), (str "Clutch Pedal Switch 'B' Circuit High"));
  ((str "P0836"), (str "Four Wheel Drive (4WD) Switch Circuit"));
  ((str "P0837"), (str "Four Wheel Drive (4WD) Switch Circuit Range/Performance"));
  ((str "P0838"), (str "Four Wheel Drive (4WD) Switch Circuit Low"));
  ((str "P0839"), (str "Four Wheel Drive (4WD) Switch Circuit High"));
  ((str "P0840"), (str "Transmission Fluid Pressure Sensor/Switch 'A' Circuit"));
  ((str "P0841"), (str "Transmission Fluid Pressure Sensor/Switch 'A' Circuit Range/Performance"));
  ((str "P0842"), (str "Transmission Fluid Pressure Sensor/Switch 'A' Circuit Low"));
  ((str "P0843"), (str "Transmission Fluid Pressure Sensor/Switch 'A' Circuit High"));
  ((str "P0844"), (str "Transmission Fluid Pressure Sensor/Switch 'A' Circuit Intermittent"));
  ((str "P0845"), (str "Transmission Fluid Pressure Sensor/Switch 'B' Circuit"));
  ((str "P0846"), (str "Transmission Fluid Pressure Sensor/Switch 'B' Circuit Range/Performance"));
  ((str "P0847"), (str "Transmission Fluid Pressure Sensor/Switch 'B' Circuit Low"));
  ((str "P0848"), (str "Transmission Fluid Pressure Sensor/Switch 'B' Circuit High"));
  ((str "P0849"), (str "Transmission Fluid Pressure Sensor/Switch 'B' Circuit Intermittent"));
  ((str "P0850"), (str "Park/Neutral Switch Input Circuit"));
  ((str "P0851"), (str "Park/Neutral Switch Input Circuit Low"));
  ((str "P0852"), (str "Park/Neutral Switch Input Circuit High"));
  ((str "P0853"), (str "Drive Switch Input Circuit"));
  ((str "P0854"), (str "Drive Switch Input Circuit Low"));
  ((str "P0855"), (str "Drive Switch Input Circuit High"));
  ((str "P0856"), (str "Traction Control Input Signal"));
  ((str "P0857"), (str "Traction Control Input Signal Range/Performance"));
  ((str "P0858"), (str "Traction Control Input Signal Low"));
  ((str "P0859"), (str "Traction Control Input Signal High"));
  ((str "P0860"), (str "Gear Shift Module Communication Circuit"));
  ((str "P0861"), (str "Gear Shift Module Communication Circuit Low"));
  ((str "P0862"), (str "Gear Shift Module Communication Circuit High"));
  ((str "P0863"), (str "TCM Communication Circuit"));
  ((str "P0864"), (str "TCM Communication Circuit Range/Performance"));
  ((str "P0865"), (str "TCM Communication Circuit Low"));
  ((str "P0866"), (str "TCM Communication Circuit High"));
  ((str "P0867"), (str "Transmission Fluid Pressure"));
  ((str "P0868"), (str "Transmission Fluid Pressure Low"));
  ((str "P0869"), (str "Transmission Fluid Pressure High"));
  ((str "P0870"), (str "Transmission Fluid Pressure Sensor/Switch 'C' Circuit"));
  ((str "P0871"), (str "Transmission Fluid Pressure Sensor/Switch 'C' Circuit Range/Performance"));
  ((str "P0872"), (str "Transmission Fluid Pressure Sensor/Switch 'C' Circuit Low"));
  ((str "P0873"), (str "Transmission Fluid Pressure Sensor/Switch 'C' Circuit High"));
  ((str "P0874"), (str "Transmission Fluid Pressure Sensor/Switch 'C' Circuit Intermittent"));
  ((str "P0875"), (str "Transmission Fluid Pressure Sensor/Switch 'D' Circuit"));
  ((str "P0876"), (str "Transmission Fluid Pressure Sensor/Switch 'D' Circuit Range/Performance"));
  ((str "P0877"), (str "Transmission Fluid Pressure Sensor/Switch 'D' Circuit Low"));
  ((str "P0878"), (str "Transmission Fluid Pressure Sensor/Switch 'D' Circuit High"));
  ((str "P0879"), (str "Transmission Fluid Pressure Sensor/Switch 'D' Circuit Intermittent"));
  ((str "P0880"), (str "TCM Power Input Signal"));
  ((str "P0881"), (str "TCM Power Input Signal Range/Performance"));
  ((str "P0882"), (str "TCM Power Input Signal Low"));
  ((str "P0883"), (str "TCM Power Input Signal High"));
  ((str "P0884"), (str "TCM Power Input Signal Intermittent"));
  ((str "P0885"), (str "TCM Power Relay Control Circuit/Open"));
  ((str "P0886"), (str "TCM Power Relay Control Circuit Low"));
  ((str "P0887"), (str "TCM Power Relay Control Circuit High"));
  ((str "P0888"), (str "TCM Power Relay Sense Circuit"));
  ((str "P0889"), (str "TCM Power Relay Sense Circuit Range/Performance"));
  ((str "P0890"), (str "TCM Power Relay Sense Circuit Low"));
  ((str "P0891"), (str "TCM Power Relay Sense Circuit High"));
  ((str "P0892"), (str "TCM Power Relay Sense Circuit Intermittent"));
  ((str "P0893"), (str "Multiple Gears Engaged"));
  ((str "P0894"), (str "Transmission Component Slipping"));
  ((str "P0895"), (str "Shift Time Too Short"));
  ((str "P0896"), (str "Shift Time Too Long"));
  ((str "P0897"), (str "Transmission Fluid Deteriorated"));
  ((str "P0898"), (str "Transmission Control System MIL Request Circuit Low"));
  ((str "P0899"), (str "Transmission Control System MIL Request Circuit High"));
  ((str "P0900"), (str "Clutch Actuator Circuit/Open"));
  ((str "P0901"), (str "Clutch Actuator Circuit Range/Performance"));
  ((str "P0902"), (str "Clutch Actuator Circuit Low"));
  ((str "P0903"), (str "Clutch Actuator Circuit High"));
  ((str "P0904"), (str "Gate Select Position Circuit"));
  ((str "P0905"), (str "Gate Select Position Circuit Range/Performance"));
  ((str "P0906"), (str "Gate Select Position Circuit Low"));
  ((str "P0907"), (str "Gate Select Position Circuit High"));
  ((str "P0908"), (str "Gate Select Position Circuit Intermittent"));
  ((str "P0909"), (str "Gate Select Control Error"));
  ((str "P0910"), (str "Gate Select Actuator Circuit/Open"));
  ((str "P0911"), (str "Gate Select Actuator Circuit Range/Performance"));
  ((str "P0912"), (str "Gate Select Actuator Circuit Low"));
  ((str "P0913"), (str "Gate Select Actuator Circuit High"));
  ((str "P0914"), (str "Gear Shift Position Circuit"));
  ((str "P0915"), (str "Gear Shift Position Circuit Range/Performance"));
  ((str "P0916"), (str "Gear Shift Position Circuit Low"));
  ((str "P0917"), (str "Gear Shift Position Circuit High"));
  ((str "P0918"), (str "Gear Shift Position Circuit Intermittent"));
  ((str "P0919"), (str "Gear Shift Position Control Error"));
  ((str "P0920"), (str "Gear Shift Forward Actuator Circuit/Open"));
  ((str "P0921"), (str "Gear Shift Forward Actuator Circuit Range/Performance"));
  ((str "P0922"), (str "Gear Shift Forward Actuator Circuit Low"));
  ((str "P0923"), (str "Gear Shift Forward Actuator Circuit High"));
  ((str "P0924"), (str "Gear Shift Reverse Actuator Circuit/Open"));
  ((str "P0925"), (str "Gear Shift Reverse Actuator Circuit Range/Performance"));
  ((str "P0926"), (str "Gear Shift Reverse Actuator Circuit Low"));
  ((str "P0927"), (str "Gear Shift Reverse Actuator Circuit High"));
  ((str "P0928"), (str "Gear Shift Lock Solenoid Control Circuit/Open"));
  ((str "P0929"), (str "Gear Shift Lock Solenoid Control Circuit Range/Performance"));
  ((str "P0930"), (str "Gear Shift Lock Solenoid Control Circuit Low"));
  ((str "P0931"), (str "Gear Shift Lock Solenoid Control Circuit High"));
  ((str "P0932"), (str "Hydraulic Pressure Sensor Circuit"));
  ((str "P0933"), (str "Hydraulic Pressure Sensor Range/Performance"));
  ((str "P0934"), (str "Hydraulic Pressure Sensor Circuit Low"));
  ((str "P0935"), (str "Hydraulic Pressure Sensor Circuit High"));
  ((str "P0936"), (str "Hydraulic Pressure Sensor Circuit Intermittent"));
  ((str "P0937"), (str "Hydraulic Oil Temperature Sensor Circuit"));
  ((str "P0938"), (str "Hydraulic Oil Temperature Sensor Range/Performance"));
  ((str "P0939"), (str "Hydraulic Oil Temperature Sensor Circuit Low"));
  ((str "P0940"), (str "Hydraulic Oil Temperature Sensor Circuit High"));
  ((str "P0941"), (str "Hydraulic Oil Temperature Sensor Circuit Intermittent"));
  ((str "P0942"), (str "Hydraulic Pressure Unit"));
  ((str "P0943"), (str "Hydraulic Pressure Unit Cycling Period Too Short"));
  ((str "P0944"), (str "Hydraulic Pressure Unit Loss of Pressure"));
  ((str "P0945"), (str "Hydraulic Pump Relay Circuit/Open"));
  ((str "P0946"), (str "Hydraulic Pump Relay Circuit Range/Performance"));
  ((str "P0947"), (str "Hydraulic Pump Relay Circuit Low"));
  ((str "P0948"), (str "Hydraulic Pump Relay Circuit High"));
  ((str "P0949"), (str "Auto Shift Manual Adaptive Learning Not Complete"));
  ((str "P0950"), (str "Auto Shift Manual Control Circuit"));
  ((str "P0951"), (str "Auto Shift Manual Control Circuit Range/Performance"));
  ((str "P0952"), (str "Auto Shift Manual Control Circuit Low"));
  ((str "P0953"), (str "Auto Shift Manual Control Circuit High"));
  ((str "P0954"), (str "Auto Shift Manual Control Circuit Intermittent"));
  ((str "P0955"), (str "Auto Shift Manual Mode Circuit"));
  ((str "P0956"), (str "Auto Shift Manual Mode Circuit Range/Performance"));
  ((str "P0957"), (str "Auto Shift Manual Mode Circuit Low"));
  ((str "P0958"), (str "Auto Shift Manual Mode Circuit High"));
  ((str "P0959"), (str "Auto Shift Manual Mode Circuit Intermittent"));
  ((str "P0960"), (str "Pressure Control Solenoid 'A' Control Circuit/Open"));
  ((str "P0961"), (str "Pressure Control Solenoid 'A' Control Circuit Range/Performance"));
  ((str "P0962"), (str "Pressure Control Solenoid 'A' Control Circuit Low"));
  ((str "P0963"), (str "Pressure Control Solenoid 'A' Control Circuit High"));
  ((str "P0964"), (str "Pressure Control Solenoid 'B' Control Circuit/Open"));
  ((str "P0965"), (str "Pressure Control Solenoid 'B' Control Circuit Range/Performance"));
  ((str "P0966"), (str "Pressure Control Solenoid 'B' Control Circuit Low"));
  ((str "P0967"), (str "Pressure Control Solenoid 'B' Control Circuit High"));
  ((str "P0968"), (str "Pressure Control Solenoid 'C' Control Circuit/Open"));
  ((str "P0969"), (str "Pressure Control Solenoid 'C' Control Circuit Range/Performance"));
  ((str "P0970"), (str "Pressure Control Solenoid 'C' Control Circuit Low"));
  ((str "P0971"), (str "Pressure Control Solenoid 'C' Control Circuit High"));
  ((str "P0972"), (str "Shift Solenoid 'A' Control Circuit Range/Performance"));
  ((str "P0973"), (str "Shift Solenoid 'A' Control Circuit Low"));
  ((str "P0974"), (str "Shift Solenoid 'A' Control Circuit High"));
  ((str "P0975"), (str "Shift Solenoid 'B' Control Circuit Range/Performance"));
  ((str "P0976"), (str "Shift Solenoid 'B' Control Circuit Low"));
  ((str "P0977"), (str "Shift Solenoid 'B' Control Circuit High"));
  ((str "P0978"), (str "Shift Solenoid 'C' Control Circuit Range/Performance"));
  ((str "P0979"), (str "Shift Solenoid 'C' Control Circuit Low"));
  ((str "P0980"), (str "Shift Solenoid 'C' Control Circuit High"));
  ((str "P0981"), (str "Shift Solenoid 'D' Control Circuit Range/Performance"));
  ((str "P0982"), (str "Shift Solenoid 'D' Control Circuit Low"));
  ((str "P0983"), (str "Shift Solenoid 'D' Control Circuit High"));
  ((str "P0984"), (str "Shift Solenoid 'E' Control Circuit Range/Performance"));
  ((str "P0985"), (str "Shift Solenoid 'E' Control Circuit Low"));
  ((str "P0986"), (str "Shift Solenoid 'E' Control Circuit High"));
  ((str "P0987"), (str "Transmission Fluid Pressure Sensor/Switch 'E' Circuit"));
  ((str "P0988"), (str "Transmission Fluid Pressure Sensor/Switch 'E' Circuit Range/Performance"));
  ((str "P0989"), (str "Transmission Fluid Pressure Sensor/Switch 'E' Circuit Low"));
  ((str "P0990"), (str "Transmission Fluid Pressure Sensor/Switch 'E' Circuit High"));
  ((str "P0991"), (str "Transmission Fluid Pressure Sensor/Switch 'E' Circuit Intermittent"));
  ((str "P0992"), (str "Transmission Fluid Pressure Sensor/Switch 'F' Circuit"));
  ((str "P0993"), (str "Transmission Fluid Pressure Sensor/Switch 'F' Circuit Range/Performance"));
  ((str "P0994"), (str "Transmission Fluid Pressure Sensor/Switch 'F' Circuit Low"));
  ((str "P0995"), (str "Transmission Fluid Pressure Sensor/Switch 'F' Circuit High"));
  ((str "P0996"), (str "Transmission Fluid Pressure Sensor/Switch 'F' Circuit Intermittent"));
  ((str "P0997"), (str "Shift Solenoid 'F' Control Circuit Range/Performance"));
  ((str "P0998"), (str "Shift Solenoid 'F' Control Circuit Low"));
  ((str "P0999"), (str "Shift Solenoid 'F' Control Circuit High"));
  ((str "P0A00"), (str "Motor Electronics Coolant Temperature Sensor Circuit"));
  ((str "P0A01"), (str "Motor Electronics Coolant Temperature Sensor Circuit Range/Performance"));
  ((str "P0A02"), (str "Motor Electronics Coolant Temperature Sensor Circuit Low"));
  ((str "P0A03"), (str "Motor Electronics Coolant Temperature Sensor Circuit High"));
  ((str "P0A04"), (str "Motor Electronics Coolant Temperature Sensor Circuit Intermittent"));
  ((str "P0A05"), (str "Motor Electronics Coolant Pump Control Circuit/Open"));
  ((str "P0A06"), (str "Motor Electronics Coolant Pump Control Circuit Low"));
  ((str "P0A07"), (str "Motor Electronics Coolant Pump Control Circuit High"));
  ((str "P0A08"), (str "DC/DC Converter Status Circuit"));
  ((str "P0A09"), (str "DC/DC Converter Status Circuit Low Input"));
  ((str "P0A10"), (str "DC/DC Converter Status Circuit High Input"));
  ((str "P0A11"), (str "DC/DC Converter Enable Circuit/Open"));
  ((str "P0A12"), (str "DC/DC Converter Enable Circuit Low"));
  ((str "P0A13"), (str "DC/DC Converter Enable Circuit High"));
  ((str "P0A14"), (str "Engine Mount Control Circuit/Open"));
  ((str "P0A15"), (str "Engine Mount Control Circuit Low"));
  ((str "P0A16"), (str "Engine Mount Control Circuit High"));
  ((str "P0A17"), (str "Motor Torque Sensor Circuit"));
  ((str "P0A18"), (str "Motor Torque Sensor Circuit Range/Performance"));
  ((str "P0A19"), (str "Motor Torque Sensor Circuit Low"));
  ((str "P0A20"), (str "Motor Torque Sensor Circuit High"));
  ((str "P0A21"), (str "Motor Torque Sensor Circuit Intermittent"));
  ((str "P0A22"), (str "Generator Torque Sensor Circuit"));
  ((str "P0A23"), (str "Generator Torque Sensor Circuit Range/Performance"));
  ((str "P0A24"), (str "Generator Torque Sensor Circuit Low"));
  ((str "P0A25"), (str "Generator Torque Sensor Circuit High"));
  ((str "P0A26"), (str "Generator Torque Sensor Circuit Intermittent"));
  ((str "P0A27"), (str "Battery Power Off Circuit"));
  ((str "P0A28"), (str "Battery Power Off Circuit Low"));
  ((str "P0A29"), (str "Battery Power Off Circuit High"));
  ((str "P2000"), (str "NOx Trap Efficiency Below Threshold"));
  ((str "P2001"), (str "NOx Trap Efficiency Below Threshold"));
  ((str "P2002"), (str "Particulate Trap Efficiency Below Threshold"));
  ((str "P2003"), (str "Particulate Trap Efficiency Below Threshold"));
  ((str "P2004"), (str "Intake Manifold Runner Control Stuck Open"));
  ((str "P2005"), (str "Intake Manifold Runner Control Stuck Open"));
  ((str "P2006"), (str "Intake Manifold Runner Control Stuck Closed"));
  ((str "P2007"), (str "Intake Manifold Runner Control Stuck Closed"));
  ((str "P2008"), (str "Intake Manifold Runner Control Circuit/Open"));
  ((str "P2009"), (str "Intake Manifold Runner Control Circuit Low"));
  ((str "P2010"), (str "Intake Manifold Runner Control Circuit High"));
  ((str "P2011"), (str "Intake Manifold Runner Control Circuit/Open"));
  ((str "P2012"), (str "Intake Manifold Runner Control Circuit Low"));
  ((str "P2013"), (str "Intake Manifold Runner Control Circuit High"));
  ((str "P2014"), (str "Intake Manifold Runner Position Sensor/Switch Circuit"));
  ((str "P2015"), (str "Intake Manifold Runner Position Sensor/Switch Circuit Range/Performance"));
  ((str "P2016"), (str "Intake Manifold Runner Position Sensor/Switch Circuit Low"));
  ((str "P2017"), (str "Intake Manifold Runner Position Sensor/Switch Circuit High"));
  ((str "P2018"), (str "Intake Manifold Runner Position Sensor/Switch Circuit Intermittent"));
  ((str "P2019"), (str "Intake Manifold Runner Position Sensor/Switch Circuit"));
  ((str "P2020"), (str "Intake Manifold Runner Position Sensor/Switch Circuit Range/Performance"));
  ((str "P2021"), (str "Intake Manifold Runner Position Sensor/Switch Circuit Low"));
  ((str "P2022"), (str "Intake Manifold Runner Position Sensor/Switch Circuit High"));
  ((str "P2023"), (str "Intake Manifold Runner Position Sensor/Switch Circuit Intermittent"));
  ((str "P2024"), (str "Evaporative Emissions (EVAP) Fuel Vapor Temperature Sensor Circuit"));
  ((str "P2025"), (str "Evaporative Emissions (EVAP) Fuel Vapor Temperature Sensor Performance"));
  ((str "P2026"), (str "Evaporative Emissions (EVAP) Fuel Vapor Temperature Sensor Circuit Low Voltage"));
  ((str "P2027"), (str "Evaporative Emissions (EVAP) Fuel Vapor Temperature Sensor Circuit High Voltage"));
  ((str "P2028"), (str "Evaporative Emissions (EVAP) Fuel Vapor Temperature Sensor Circuit Intermittent"));
  ((str "P2029"), (str "Fuel Fired Heater Disabled"));
  ((str "P2030"), (str "Fuel Fired Heater Performance"));
  ((str "P2031"), (str "Exhaust Gas Temperature Sensor Circuit"));
  ((str "P2032"), (str "Exhaust Gas Temperature Sensor Circuit Low"));
  ((str "P2033"), (str "Exhaust Gas Temperature Sensor Circuit High"));
  ((str "P2034"), (str "Exhaust Gas Temperature Sensor Circuit"));
  ((str "P2035"), (str "Exhaust Gas Temperature Sensor Circuit Low"));
  ((str "P2036"), (str "Exhaust Gas Temperature Sensor Circuit High"));
  ((str "P2037"), (str "Reductant Injection Air Pressure Sensor Circuit"));
  ((str "P2038"), (str "Reductant Injection Air Pressure Sensor Circuit Range/Performance"));
  ((str "P2039"), (str "Reductant Injection Air Pressure Sensor Circuit Low Input"));
  ((str "P2040"), (str "Reductant Injection Air Pressure Sensor Circuit High Input"));
  ((str "P2041"), (str "Reductant Injection Air Pressure Sensor Circuit Intermittent"));
  ((str "P2042"), (str "Reductant Temperature Sensor Circuit"));
  ((str "P2043"), (str "Reductant Temperature Sensor Circuit Range/Performance"));
  ((str "P2044"), (str "Reductant Temperature Sensor Circuit Low Input"));
  ((str "P2045"), (str "Reductant Temperature Sensor Circuit High Input"));
  ((str "P2046"), (str "Reductant Temperature Sensor Circuit Intermittent"));
  ((str "P2047"), (str "Reductant Injector Circuit/Open"));
  ((str "P2048"), (str "Reductant Injector Circuit Low"));
  ((str "P2049"), (str "Reductant Injector Circuit High"));
  ((str "P2050"), (str "Reductant Injector Circuit/Open"));
  ((str "P2051"), (str "Reductant Injector Circuit Low"));
  ((str "P2052"), (str "Reductant Injector Circuit High"));
  ((str "P2053"), (str "Reductant Injector Circuit/Open"));
  ((str "P2054"), (str "Reductant Injector Circuit Low"));
  ((str "P2055"), (str "Reductant Injector Circuit High"));
  ((str "P2056"), (str "Reductant Injector Circuit/Open"));
  ((str "P2057"), (str "Reductant Injector Circuit Low"));
  ((str "P2058"), (str "Reductant Injector Circuit High"));
  ((str "P2059"), (str "Reductant Injection Air Pump Control Circuit/Open"));
  ((str "P2060"), (str "Reductant Injection Air Pump Control Circuit Low"));
  ((str "P2061"), (str "Reductant Injection Air Pump Control Circuit High"));
  ((str "P2062"), (str "Reductant Supply Control Circuit/Open"));
  ((str "P2063"), (str "Reductant Supply Control Circuit Low"));
  ((str "P2064"), (str "Reductant Supply Control Circuit High"));
  ((str "P2065"), (str "Fuel Level Sensor 'B' Circuit"));
  ((str "P2066"), (str "Fuel Level Sensor 'B' Performance"));
  ((str "P2067"), (str "Fuel Level Sensor 'B' Circuit Low"));
  ((str "P2068"), (str "Fuel Level Sensor 'B' Circuit High"));
  ((str "P2069"), (str "Fuel Level Sensor 'B' Circuit Intermittent"));
  ((str "P2070"), (str "Intake Manifold Tuning (IMT) Valve Stuck Open"));
  ((str "P2071"), (str "Intake Manifold Tuning (IMT) Valve Stuck Closed"));
  ((str "P2075"), (str "Intake Manifold Tuning (IMT) Valve Position Sensor/Switch Circuit"));
  ((str "P2076"), (str "Intake Manifold Tuning (IMT) Valve Position Sensor/Switch Circuit Range/Performance"));
  ((str "P2077"), (str "Intake Manifold Tuning (IMT) Valve Position Sensor/Switch Circuit Low"));
  ((str "P2078"), (str "Intake Manifold Tuning (IMT) Valve Position Sensor/Switch Circuit High"));
  ((str "P2079"), (str "Intake Manifold Tuning (IMT) Valve Position Sensor/Switch Circuit Intermittent"));
  ((str "P2080"), (str "Exhaust Gas Temperature Sensor Circuit Range/Performance"));
  ((str "P2081"), (str "Exhaust Gas Temperature Sensor Circuit Intermittent"));
  ((str "P2082"), (str "Exhaust Gas Temperature Sensor Circuit Range/Performance"));
  ((str "P2083"), (str "Exhaust Gas Temperature Sensor Circuit Intermittent"));
  ((str "P2084"), (str "Exhaust Gas Temperature Sensor Circuit Range/Performance"));
  ((str "P2085"), (str "Exhaust Gas Temperature Sensor Circuit Intermittent"));
  ((str "P2086"), (str "Exhaust Gas Temperature Sensor Circuit Range/Performance"));
  ((str "P2087"), (str "Exhaust Gas Temperature Sensor Circuit Intermittent"));
  ((str "P2088"), (str "'A' Camshaft Position Actuator Control Circuit Low"));
  ((str "P2089"), (str "'A' Camshaft Position Actuator Control Circuit High"));
  ((str "P2090"), (str "'B' Camshaft Position Actuator Control Circuit Low"));
  ((str "P2091"), (str "'B' Camshaft Position Actuator Control Circuit High"));
  ((str "P2092"), (str "'A' Camshaft Position Actuator Control Circuit Low"));
  ((str "P2093"), (str "'A' Camshaft Position Actuator Control Circuit High"));
  ((str "P2094"), (str "'B' Camshaft Position Actuator Control Circuit Low"));
  ((str "P2095"), (str "'B' Camshaft Position Actuator Control Circuit High"));
  ((str "P2096"), (str "Post Catalyst Fuel Trim System Too Lean"));
  ((str "P2097"), (str "Post Catalyst Fuel Trim System Too Rich"));
  ((str "P2098"), (str "Post Catalyst Fuel Trim System Too Lean"));
  ((str "P2099"), (str "Post Catalyst Fuel Trim System Too Rich"));
  ((str "P2100"), (str "Throttle Actuator Control Motor Circuit/Open"));
  ((str "P2101"), (str "Throttle Actuator Control Motor Circuit Range/Performance"));
  ((str "P2102"), (str "Throttle Actuator Control Motor Circuit Low"));
  ((str "P2103"), (str "Throttle Actuator Control Motor Circuit High"));
  ((str "P2104"), (str "Throttle Actuator Control System - Forced Idle"));
  ((str "P2105"), (str "Throttle Actuator Control System - Forced Engine Shutdown"));
  ((str "P2106"), (str "Throttle Actuator Control System - Forced Limited Power"));
  ((str "P2107"), (str "Throttle Actuator Control Module Processor"));
  ((str "P2108"), (str "Throttle Actuator Control Module Performance"));
  ((str "P2109"), (str "Throttle/Pedal Position Sensor 'A' Minimum Stop Performance"));
  ((str "P2110"), (str "Throttle Actuator Control System - Forced Limited RPM"));
  ((str "P2111"), (str "Throttle Actuator Control System - Stuck Open"));
  ((str "P2112"), (str "Throttle Actuator Control System - Stuck Closed"));
  ((str "P2113"), (str "Throttle/Pedal Position Sensor 'B' Minimum Stop Performance"));
  ((str "P2114"), (str "Throttle/Pedal Position Sensor 'C' Minimum Stop Performance"));
  ((str "P2115"), (str "Throttle/Pedal Position Sensor 'D' Minimum Stop Performance"));
  ((str "P2116"), (str "Throttle/Pedal Position Sensor 'E' Minimum Stop Performance"));
  ((str "P2117"), (str "Throttle/Pedal Position Sensor 'F' Minimum Stop Performance"));
  ((str "P2118"), (str "Throttle Actuator Control Motor Current Range/Performance"));
  ((str "P2119"), (str "Throttle Actuator Control Throttle Body Range/Performance"));
  ((str "P2120"), (str "Throttle/Pedal Position Sensor/Switch 'D' Circuit"));
  ((str "P2121"), (str "Throttle/Pedal Position Sensor/Switch 'D' Circuit Range/Performance"));
  ((str "P2122"), (str "Throttle/Pedal Position Sensor/Switch 'D' Circuit Low Input"));
  ((str "P2123"), (str "Throttle/Pedal Position Sensor/Switch 'D' Circuit High Input"));
  ((str "P2124"), (str "Throttle/Pedal Position Sensor/Switch 'D' Circuit Intermittent"));
  ((str "P2125"), (str "Throttle/Pedal Position Sensor/Switch 'E' Circuit"));
  ((str "P2126"), (str "Throttle/Pedal Position Sensor/Switch 'E' Circuit Range/Performance"));
  ((str "P2127"), (str "Throttle/Pedal Position Sensor/Switch 'E' Circuit Low Input"));
  ((str "P2128"), (str "Throttle/Pedal Position Sensor/Switch 'E' Circuit High Input"));
  ((str "P2129"), (str "Throttle/Pedal Position Sensor/Switch 'E' Circuit Intermittent"));
  ((str "P2130"), (str "Throttle/Pedal Position Sensor/Switch 'F' Circuit"));
  ((str "P2131"), (str "Throttle/Pedal Position Sensor/Switch 'F' Circuit Range Performance"));
  ((str "P2132"), (str "Throttle/Pedal Position Sensor/Switch 'F' Circuit Low Input"));
  ((str "P2133"), (str "Throttle/Pedal Position Sensor/Switch 'F' Circuit High Input"));
  ((str "P2134"), (str "Throttle/Pedal Position Sensor/Switch 'F' Circuit Intermittent"));
  ((str "P2135"), (str "Throttle/Pedal Position Sensor/Switch 'A' / 'B' Voltage Correlation"));
  ((str "P2136"), (str "Throttle/Pedal Position Sensor/Switch 'A' / 'C' Voltage Correlation"));
  ((str "P2137"), (str "Throttle/Pedal Position Sensor/Switch 'B' / 'C' Voltage Correlation"));
  ((str "P2138"), (str "Throttle/Pedal Position Sensor/Switch 'D' / 'E' Voltage Correlation"));
  ((str "P2139"), (str "Throttle/Pedal Position Sensor/Switch 'D' / 'F' Voltage Correlation"));
  ((str "P2140"), (str "Throttle/Pedal Position Sensor/Switch 'E' / 'F' Voltage Correlation"));
  ((str "P2141"), (str "Exhaust Gas Recirculation Throttle Control Circuit Low"));
  ((str "P2142"), (str "Exhaust Gas Recirculation Throttle Control Circuit High"));
  ((str "P2143"), (str "Exhaust Gas Recirculation Vent Control Circuit/Open"));
  ((str "P2144"), (str "Exhaust Gas Recirculation Vent Control Circuit Low"));
  ((str "P2145"), (str "Exhaust Gas Recirculation Vent Control Circuit High"));
  ((str "P2146"), (str "Fuel Injector Group 'A' Supply Voltage Circuit/Open"));
  ((str "P2147"), (str "Fuel Injector Group 'A' Supply Voltage Circuit Low"));
  ((str "P2148"), (str "Fuel Injector Group 'A' Supply Voltage Circuit High"));
  ((str "P2149"), (str "Fuel Injector Group 'B' Supply Voltage Circuit/Open"));
  ((str "P2150"), (str "Fuel Injector Group 'B' Supply Voltage Circuit Low"));
  ((str "P2151"), (str "Fuel Injector Group 'B' Supply Voltage Circuit High"));
  ((str "P2152"), (str "Fuel Injector Group 'C' Supply Voltage Circuit/Open"));
  ((str "P2153"), (str "Fuel Injector Group 'C' Supply Voltage Circuit Low"));
  ((str "P2154"), (str "Fuel Injector Group 'C' Supply Voltage Circuit High"));
  ((str "P2155"), (str "Fuel Injector Group 'D' Supply Voltage Circuit/Open"));
  ((str "P2156"), (str "Fuel Injector Group 'D' Supply Voltage Circuit Low"));
  ((str "P2157"), (str "Fuel Injector Group 'D' Supply Voltage Circuit High"));
  ((str "P2158"), (str "Vehicle Speed Sensor 'B'"));
  ((str "P2159"), (str "Vehicle Speed Sensor 'B' Range/Performance"));
  ((str "P2160"), (str "Vehicle Speed Sensor 'B' Circuit Low"));
  ((str "P2161"), (str "Vehicle Speed Sensor 'B' Intermittent/Erratic"));
  ((str "P2162"), (str "Vehicle Speed Sensor 'A' / 'B' Correlation"));
  ((str "P2163"), (str "Throttle/Pedal Position Sensor 'A' Maximum Stop Performance"));
  ((str "P2164"), (str "Throttle/Pedal Position Sensor 'B' Maximum Stop Performance"));
  ((str "P2165"), (str "Throttle/Pedal Position Sensor 'C' Maximum Stop Performance"));
  ((str "P2166"), (str "Throttle/Pedal Position Sensor 'D' Maximum Stop Performance"));
  ((str "P2167"), (str "Throttle/Pedal Position Sensor 'E' Maximum Stop Performance"));
  ((str "P2168"), (str "Throttle/Pedal Position Sensor 'F' Maximum Stop Performance"));
  ((str "P2169"), (str "Exhaust Pressure Regulator Vent Solenoid Control Circuit/Open"));
  ((str "P2170"), (str "Exhaust Pressure Regulator Vent Solenoid Control Circuit Low"));
  ((str "P2171"), (str "Exhaust Pressure Regulator Vent Solenoid Control Circuit High"));
  ((str "P2172"), (str "Throttle Actuator Control System - Sudden High Airflow Detected"));
  ((str "P2173"), (str "Throttle Actuator Control System - High Airflow Detected"));
  ((str "P2174"), (str "Throttle Actuator Control System - Sudden Low Airflow Detected"));
  ((str "P2175"), (str "Throttle Actuator Control System - Low Airflow Detected"));
  ((str "P2176"), (str "Throttle Actuator Control System - Idle Position Not Learned"));
  ((str "P2177"), (str "System Too Lean Off Idle"));
  ((str "P2178"), (str "System Too Rich Off Idle"));
  ((str "P2179"), (str "System Too Lean Off Idle"));
  ((str "P2180"), (str "System Too Rich Off Idle"));
  ((str "P2181"), (str "Cooling System Performance"));
  ((str "P2182"), (str "Engine Coolant Temperature Sensor 2 Circuit"));
  ((str "P2183"), (str "Engine Coolant Temperature Sensor 2 Circuit Range/Performance"));
  ((str "P2184"), (str "Engine Coolant Temperature Sensor 2 Circuit Low"));
  ((str "P2185"), (str "Engine Coolant Temperature Sensor 2 Circuit High"));
  ((str "P2186"), (str "Engine Coolant Temperature Sensor 2 Circuit Intermittent/Erratic"));
  ((str "P2187"), (str "System Too Lean at Idle"));
  ((str "P2188"), (str "System Too Rich at Idle"));
  ((str "P2189"), (str "System Too Lean at Idle"));
  ((str "P2190"), (str "System Too Rich at Idle"));
  ((str "P2191"), (str "System Too Lean at Higher Load"));
  ((str "P2192"), (str "System Too Rich at Higher Load"));
  ((str "P2193"), (str "System Too Lean at Higher Load"));
  ((str "P2194"), (str "System Too Rich at Higher Load"));
  ((str "P2195"), (str "O2 Sensor Signal Stuck Lean"));
  ((str "P2196"), (str "O2 Sensor Signal Stuck Rich"));
  ((str "P2197"), (str "O2 Sensor Signal Stuck Lean"));
  ((str "P2198"), (str "O2 Sensor Signal Stuck Rich"));
  ((str "P2199"), (str "Intake Air Temperature Sensor 1 / 2 Correlation"));
  ((str "P2200"), (str "NOx Sensor Circuit"));
  ((str "P2201"), (str "NOx Sensor Circuit Range/Performance"));
  ((str "P2202"), (str "NOx Sensor Circuit Low Input"));
  ((str "P2203"), (str "NOx Sensor Circuit High Input"));
  ((str "P2204"), (str "NOx Sensor Circuit Intermittent Input"));
  ((str "P2205"), (str "NOx Sensor Heater Control Circuit/Open"));
  ((str "P2206"), (str "NOx Sensor Heater Control Circuit Low"));
  ((str "P2207"), (str "NOx Sensor Heater Control Circuit High"));
  ((str "P2208"), (str "NOx Sensor Heater Sense Circuit"));
  ((str "P2209"), (str "NOx Sensor Heater Sense Circuit Range/Performance"));
  ((str "P2210"), (str "NOx Sensor Heater Sense Circuit Low Input"));
  ((str "P2211"), (str "NOx Sensor Heater Sense Circuit High Input"));
  ((str "P2212"), (str "NOx Sensor Heater Sense Circuit Intermittent"));
  ((str "P2213"), (str "NOx Sensor Circuit"));
  ((str "P2214"), (str "NOx Sensor Circuit Range/Performance"));
  ((str "P2215"), (str "NOx Sensor Circuit Low Input"));
  ((str "P2216"), (str "NOx Sensor Circuit High Input"));
  ((str "P2217"), (str "NOx Sensor Circuit Intermittent Input"));
  ((str "P2218"), (str "NOx Sensor Heater Control Circuit/Open"));
  ((str "P2219"), (str "NOx Sensor Heater Control Circuit Low"));
  ((str "P2220"), (str "NOx Sensor Heater Control Circuit High"));
  ((str "P2221"), (str "NOx Sensor Heater Sense Circuit"));
  ((str "P2222"), (str "NOx Sensor Heater Sense Circuit Range/Performance"));
  ((str "P2223"), (str "NOx Sensor Heater Sense Circuit Low"));
  ((str "P2224"), (str "NOx Sensor Heater Sense Circuit High"));
  ((str "P2225"), (str "NOx Sensor Heater Sense Circuit Intermittent"));
  ((str "P2226"), (str "Barometric Pressure Circuit"));
  ((str "P2227"), (str "Barometric Pressure Circuit Range/Performance"));
  ((str "P2228"), (str "Barometric Pressure Circuit Low"));
  ((str "P2229"), (str "Barometric Pressure Circuit High"));
  ((str "P2230"), (str "Barometric Pressure Circuit Intermittent"));
  ((str "P2231"), (str "O2 Sensor Signal Circuit Shorted to Heater Circuit"));
  ((str "P2232"), (str "O2 Sensor Signal Circuit Shorted to Heater Circuit"));
  ((str "P2233"), (str "O2 Sensor Signal Circuit Shorted to Heater Circuit"));
  ((str "P2234"), (str "O2 Sensor Signal Circuit Shorted to Heater Circuit"));
  ((str "P2235"), (str "O2 Sensor Signal Circuit Shorted to Heater Circuit"));
  ((str "P2236"), (str "O2 Sensor Signal Circuit Shorted to Heater Circuit"));
  ((str "P2237"), (str "O2 Sensor Positive Current Control Circuit/Open"));
  ((str "P2238"), (str "O2 Sensor Positive Current Control Circuit Low"));
  ((str "P2239"), (str "O2 Sensor Positive Current Control Circuit High"));
  ((str "P2240"), (str "O2 Sensor Positive Current Control Circuit/Open"));
  ((str "P2241"), (str "O2 Sensor Positive Current Control Circuit Low"));
  ((str "P2242"), (str "O2 Sensor Positive Current Control Circuit High"));
  ((str "P2243"), (str "O2 Sensor Reference Voltage Circuit/Open"));
  ((str "P2244"), (str "O2 Sensor Reference Voltage Performance"));
  ((str "P2245"), (str "O2 Sensor Reference Voltage Circuit Low"));
  ((str "P2246"), (str "O2 Sensor Reference Voltage Circuit High"));
  ((str "P2247"), (str "O2 Sensor Reference Voltage Circuit/Open"));
  ((str "P2248"), (str "O2 Sensor Reference Voltage Performance"));
  ((str "P2249"), (str "O2 Sensor Reference Voltage Circuit Low"));
  ((str "P2250"), (str "O2 Sensor Reference Voltage Circuit High"));
  ((str "P2251"), (str "O2 Sensor Negative Current Control Circuit/Open"));
  ((str "P2252"), (str "O2 Sensor Negative Current Control Circuit Low"));
  ((str "P2253"), (str "O2 Sensor Negative Current Control Circuit High"));
  ((str "P2254"), (str "O2 Sensor Negative Current Control Circuit/Open"));
  ((str "P2255"), (str "O2 Sensor Negative Current Control Circuit Low"));
  ((str "P2256"), (str "O2 Sensor Negative Current Control Circuit High"));
  ((str "P2257"), (str "Secondary Air Injection System Control 'A' Circuit Low"));
  ((str "P2258"), (str "Secondary Air Injection System Control 'A' Circuit High"));
  ((str "P2259"), (str "Secondary Air Injection System Control 'B' Circuit Low"));
  ((str "P2260"), (str "Secondary Air Injection System Control 'B' Circuit High"));
  ((str "P2261"), (str "Turbo/Super Charger Bypass Valve - Mechanical"));
  ((str "P2262"), (str "Turbo Boost Pressure Not Detected - Mechanical"));
  ((str "P2263"), (str "Turbo/Super Charger Boost System Performance"));
  ((str "P2264"), (str "Water in Fuel Sensor Circuit"));
  ((str "P2265"), (str "Water in Fuel Sensor Circuit Range/Performance"));
  ((str "P2266"), (str "Water in Fuel Sensor Circuit Low"));
  ((str "P2267"), (str "Water in Fuel Sensor Circuit High"));
  ((str "P2268"), (str "Water in Fuel Sensor Circuit Intermittent"));
  ((str "P2269"), (str "Water in Fuel Condition"));
  ((str "P2270"), (str "O2 Sensor Signal Stuck Lean"));
  ((str "P2271"), (str "O2 Sensor Signal Stuck Rich"));
  ((str "P2272"), (str "O2 Sensor Signal Stuck Lean"));
  ((str "P2273"), (str "O2 Sensor Signal Stuck Rich"));
  ((str "P2274"), (str "O2 Sensor Signal Stuck Lean"));
  ((str "P2275"), (str "O2 Sensor Signal Stuck Rich"));
  ((str "P2276"), (str "O2 Sensor Signal Stuck Lean"));
  ((str "P2277"), (str "O2 Sensor Signal Stuck Rich"));
  ((str "P2278"), (str "O2 Sensor Signals Swapped Bank 1 Sensor 3 / Bank 2 Sensor 3"));
  ((str "P2279"), (str "Intake Air System Leak"));
  ((str "P2280"), (str "Air Flow Restriction / Air Leak Between Air Filter and MAF"));
  ((str "P2281"), (str "Air Leak Between MAF and Throttle Body"));
  ((str "P2282"), (str "Air Leak Between Throttle Body and Intake Valves"));
  ((str "P2283"), (str "Injector Control Pressure Sensor Circuit"));
  ((str "P2284"), (str "Injector Control Pressure Sensor Circuit Range/Performance"));
  ((str "P2285"), (str "Injector Control Pressure Sensor Circuit Low"));
  ((str "P2286"), (str "Injector Control Pressure Sensor Circuit High"));
  ((str "P2287"), (str "Injector Control Pressure Sensor Circuit Intermittent"));
  ((str "P2288"), (str "Injector Control Pressure Too High"));
  ((str "P2289"), (str "Injector Control Pressure Too High - Engine Off"));
  ((str "P2290"), (str "Injector Control Pressure Too Low"));
  ((str "P2291"), (str "Injector Control Pressure Too Low - Engine Cranking"));
  ((str "P2292"), (str "Injector Control Pressure Erratic"));
  ((str "P2293"), (str "Fuel Pressure Regulator 2 Performance"));
  ((str "P2294"), (str "Fuel Pressure Regulator 2 Control Circuit"));
  ((str "P2295"), (str "Fuel Pressure Regulator 2 Control Circuit Low"));
  ((str "P2296"), (str "Fuel Pressure Regulator 2 Control Circuit High"));
  ((str "P2297"), (str "O2 Sensor Out of Range During Deceleration"));
  ((str "P2298"), (str "O2 Sensor Out of Range During Deceleration"));
  ((str "P2299"), (str "Brake Pedal Position / Accelerator Pedal Position Incompatible"));
  ((str "P2300"), (str "Ignition Coil 'A' Primary Control Circuit Low"));
  ((str "P2301"), (str "Ignition Coil 'A' Primary Control Circuit High"));
  ((str "P2302"), (str "Ignition Coil 'A' Secondary Circuit"));
  ((str "P2303"), (str "Ignition Coil 'B' Primary Control Circuit Low"));
  ((str "P2304"), (str "Ignition Coil 'B' Primary Control Circuit High"));
  ((str "P2305"), (str "Ignition Coil 'B' Secondary Circuit"));
  ((str "P2306"), (str "Ignition Coil 'C' Primary Control Circuit Low"));
  ((str "P2307"), (str "Ignition Coil 'C' Primary Control Circuit High"));
  ((str "P2308"), (str "Ignition Coil 'C' Secondary Circuit"));
  ((str "P2309"), (str "Ignition Coil 'D' Primary Control Circuit Low"));
  ((str "P2310"), (str "Ignition Coil 'D' Primary Control Circuit High"));
  ((str "P2311"), (str "Ignition Coil 'D' Secondary Circuit"));
  ((str "P2312"), (str "Ignition Coil 'E' Primary Control Circuit Low"));
  ((str "P2313"), (str "Ignition Coil 'E' Primary Control Circuit High"));
  ((str "P2314"), (str "Ignition Coil 'E' Secondary Circuit"));
  ((str "P2315"), (str "Ignition Coil 'F' Primary Control Circuit Low"));
  ((str "P2316"), (str "Ignition Coil 'F' Primary Control Circuit High"));
  ((str "P2317"), (str "Ignition Coil 'F' Secondary Circuit"));
  ((str "P2318"), (str "Ignition Coil 'G' Primary Control Circuit Low"));
  ((str "P2319"), (str "Ignition Coil 'G' Primary Control Circuit High"));
  ((str "P2320"), (str "Ignition Coil 'G' Secondary Circuit"));
  ((str "P2321"), (str "Ignition Coil 'H' Primary Control Circuit Low"));
  ((str "P2322"), (str "Ignition Coil 'H' Primary Control Circuit High"));
  ((str "P2323"), (str "Ignition Coil 'H' Secondary Circuit"));
  ((str "P2324"), (str "Ignition Coil 'I' Primary Control Circuit Low"));
  ((str "P2325"), (str "Ignition Coil 'I' Primary Control Circuit High"));
  ((str "P2326"), (str "Ignition Coil 'I' Secondary Circuit"));
  ((str "P2327"), (str "Ignition Coil 'J' Primary Control Circuit Low"));
  ((str "P2328"), (str "Ignition Coil 'J' Primary Control Circuit High"));
  ((str "P2329"), (str "Ignition Coil 'J' Secondary Circuit"));
  ((str "P2330"), (str "Ignition Coil 'K' Primary Control Circuit Low"));
  ((str "P2331"), (str "Ignition Coil 'K' Primary Control Circuit High"));
  ((str "P2332"), (str "Ignition Coil 'K' Secondary Circuit"));
  ((str "P2333"), (str "Ignition Coil 'L' Primary Control Circuit Low"));
  ((str "P2334"), (str "Ignition Coil 'L' Primary Control Circuit High"));
  ((str "P2335"), (str "Ignition Coil 'L' Secondary Circuit"));
  ((str "P2336"), (str "Cylinder #1 Above Knock Threshold"));
  ((str "P2337"), (str "Cylinder #2 Above Knock Threshold"));
  ((str "P2338"), (str "Cylinder #3 Above Knock Threshold"));
  ((str "P2339"), (str "Cylinder #4 Above Knock Threshold"));
  ((str "P2340"), (str "Cylinder #5 Above Knock Threshold"));
  ((str "P2341"), (str "Cylinder #6 Above Knock Threshold"));
  ((str "P2342"), (str "Cylinder #7 Above Knock Threshold"));
  ((str "P2343"), (str "Cylinder #8 Above Knock Threshold"));
  ((str "P2344"), (str "Cylinder #9 Above Knock Threshold"));
  ((str "P2345"), (str "Cylinder #10 Above Knock Threshold"));
  ((str "P2346"), (str "Cylinder #11 Above Knock Threshold"));
  ((str "P2347"), (str "Cylinder #12 Above Knock Threshold"));
  ((str "P2400"), (str "Evaporative Emission System Leak Detection Pump Control Circuit/Open"));
  ((str "P2401"), (str "Evaporative Emission System Leak Detection Pump Control Circuit Low"));
  ((str "P2402"), (str "Evaporative Emission System Leak Detection Pump Control Circuit High"));
  ((str "P2403"), (str "Evaporative Emission System Leak Detection Pump Sense Circuit/Open"));
  ((str "P2404"), (str "Evaporative Emission System Leak Detection Pump Sense Circuit Range/Performance"));
  ((str "P2405"), (str "Evaporative Emission System Leak Detection Pump Sense Circuit Low"));
  ((str "P2406"), (str "Evaporative Emission System Leak Detection Pump Sense Circuit High"));
  ((str "P2407"), (str "Evaporative Emission System Leak Detection Pump Sense Circuit Intermittent/Erratic"));
  ((str "P2408"), (str "Fuel Cap Sensor/Switch Circuit"));
  ((str "P2409"), (str "Fuel Cap Sensor/Switch Circuit Range/Performance"));
  ((str "P2410"), (str "Fuel Cap Sensor/Switch Circuit Low"));
  ((str "P2411"), (str "Fuel Cap Sensor/Switch Circuit High"));
  ((str "P2412"), (str "Fuel Cap Sensor/Switch Circuit Intermittent/Erratic"));
  ((str "P2413"), (str "Exhaust Gas Recirculation System Performance"));
  ((str "P2414"), (str "O2 Sensor Exhaust Sample Error"));
  ((str "P2415"), (str "O2 Sensor Exhaust Sample Error"));
  ((str "P2416"), (str "O2 Sensor Signals Swapped Bank 1 Sensor 2 / Bank 1 Sensor 3"));
  ((str "P2417"), (str "O2 Sensor Signals Swapped Bank 2 Sensor 2 / Bank 2 Sensor 3"));
  ((str "P2418"), (str "Evaporative Emission System Switching Valve Control Circuit / Open"));
  ((str "P2419"), (str "Evaporative Emission System Switching Valve Control Circuit Low"));
  ((str "P2420"), (str "Evaporative Emission System Switching Valve Control Circuit High"));
  ((str "P2421"), (str "Evaporative Emission System Vent Valve Stuck Open"));
  ((str "P2422"), (str "Evaporative Emission System Vent Valve Stuck Closed"));
  ((str "P2423"), (str "HC Adsorption Catalyst Efficiency Below Threshold"));
  ((str "P2424"), (str "HC Adsorption Catalyst Efficiency Below Threshold"));
  ((str "P2425"), (str "Exhaust Gas Recirculation Cooling Valve Control Circuit/Open"));
  ((str "P2426"), (str "Exhaust Gas Recirculation Cooling Valve Control Circuit Low"));
  ((str "P2427"), (str "Exhaust Gas Recirculation Cooling Valve Control Circuit High"));
  ((str "P2428"), (str "Exhaust Gas Temperature Too High"));
  ((str "P2429"), (str "Exhaust Gas Temperature Too High"));
  ((str "P2430"), (str "Secondary Air Injection System Air Flow/Pressure Sensor Circuit"));
  ((str "P2431"), (str "Secondary Air Injection System Air Flow/Pressure Sensor Circuit Range/Performance"));
  ((str "P2432"), (str "Secondary Air Injection System Air Flow/Pressure Sensor Circuit Low"));
  ((str "P2433"), (str "Secondary Air Injection System Air Flow/Pressure Sensor Circuit High"));
  ((str "P2434"), (str "Secondary Air Injection System Air Flow/Pressure Sensor Circuit Intermittent/Erratic"));
  ((str "P2435"), (str "Secondary Air Injection System Air Flow/Pressure Sensor Circuit"));
  ((str "P2436"), (str "Secondary Air Injection System Air Flow/Pressure Sensor Circuit Range/Performance"));
  ((str "P2437"), (str "Secondary Air Injection System Air Flow/Pressure Sensor Circuit Low"));
  ((str "P2438"), (str "Secondary Air Injection System Air Flow/Pressure Sensor Circuit High"));
  ((str "P2439"), (str "Secondary Air Injection System Air Flow/Pressure Sensor Circuit Intermittent/Erratic"));
  ((str "P2440"), (str "Secondary Air Injection System Switching Valve Stuck Open"));
  ((str "P2441"), (str "Secondary Air Injection System Switching Valve Stuck Closed"));
  ((str "P2442"), (str "Secondary Air Injection System Switching Valve Stuck Open"));
  ((str "P2443"), (str "Secondary Air Injection System Switching Valve Stuck Closed"));
  ((str "P2444"), (str "Secondary Air Injection System Pump Stuck On"));
  ((str "P2445"), (str "Secondary Air Injection System Pump Stuck Off"));
  ((str "P2446"), (str "Secondary Air Injection System Pump Stuck On"));
  ((str "P2447"), (str "Secondary Air Injection System Pump Stuck Off"));
  ((str "P2500"), (str "Generator Lamp/L-Terminal Circuit Low"));
  ((str "P2501"), (str "Generator Lamp/L-Terminal Circuit High"));
  ((str "P2502"), (str "Charging System Voltage"));
  ((str "P2503"), (str "Charging System Voltage Low"));
  ((str "P2504"), (str "Charging System Voltage High"));
  ((str "P2505"), (str "ECM/PCM Power Input Signal"));
  ((str "P2506"), (str "ECM/PCM Power Input Signal Range/Performance"));
  ((str "P2507"), (str "ECM/PCM Power Input Signal Low"));
  ((str "P2508"), (str "ECM/PCM Power Input Signal High"));
  ((str "P2509"), (str "ECM/PCM Power Input Signal Intermittent"));
  ((str "P2510"), (str "ECM/PCM Power Relay Sense Circuit Range/Performance"));
  ((str "P2511"), (str "ECM/PCM Power Relay Sense Circuit Intermittent"));
  ((str "P2512"), (str "Event Data Recorder Request Circuit/ Open"));
  ((str "P2513"), (str "Event Data Recorder Request Circuit Low"));
  ((str "P2514"), (str "Event Data Recorder Request Circuit High"));
  ((str "P2515"), (str "A/C Refrigerant Pressure Sensor 'B' Circuit"));
  ((str "P2516"), (str "A/C Refrigerant Pressure Sensor 'B' Circuit Range/Performance"));
  ((str "P2517"), (str "A/C Refrigerant Pressure Sensor 'B' Circuit Low"));
  ((str "P2518"), (str "A/C Refrigerant Pressure Sensor 'B' Circuit High"));
  ((str "P2519"), (str "A/C Request 'A' Circuit"));
  ((str "P2520"), (str "A/C Request 'A' Circuit Low"));
  ((str "P2521"), (str "A/C Request 'A' Circuit High"));
  ((str "P2522"), (str "A/C Request 'B' Circuit"));
  ((str "P2523"), (str "A/C Request 'B' Circuit Low"));
  ((str "P2524"), (str "A/C Request 'B' Circuit High"));
  ((str "P2525"), (str "Vacuum Reservoir Pressure Sensor Circuit"));
  ((str "P2526"), (str "Vacuum Reservoir Pressure Sensor Circuit Range/Performance"));
  ((str "P2527"), (str "Vacuum Reservoir Pressure Sensor Circuit Low"));
  ((str "P2528"), (str "Vacuum Reservoir Pressure Sensor Circuit High"));
  ((str "P2529"), (str "Vacuum Reservoir Pressure Sensor Circuit Intermittent"));
  ((str "P2530"), (str "Ignition Switch Run Position Circuit"));
  ((str "P2531"), (str "Ignition Switch Run Position Circuit Low"));
  ((str "P2532"), (str "Ignition Switch Run Position Circuit High"));
  ((str "P2533"), (str "Ignition Switch Run/Start Position Circuit"));
  ((str "P2534"), (str "Ignition Switch Run/Start Position Circuit Low"));
  ((str "P2535"), (str "Ignition Switch Run/Start Position Circuit High"));
  ((str "P2536"), (str "Ignition Switch Accessory Position Circuit"));
  ((str "P2537"), (str "Ignition Switch Accessory Position Circuit Low"));
  ((str "P2538"), (str "Ignition Switch Accessory Position Circuit High"));
  ((str "P2539"), (str "Low Pressure Fuel System Sensor Circuit"));
  ((str "P2540"), (str "Low Pressure Fuel System Sensor Circuit Range/Performance"));
  ((str "P2541"), (str "Low Pressure Fuel System Sensor Circuit Low"));
  ((str "P2542"), (str "Low Pressure Fuel System Sensor Circuit High"));
  ((str "P2543"), (str "Low Pressure Fuel System Sensor Circuit Intermittent"));
  ((str "P2544"), (str "Torque Management Request Input Signal 'A'"));
  ((str "P2545"), (str "Torque Management Request Input Signal 'A' Range/Performance"));
  ((str "P2546"), (str "Torque Management Request Input Signal 'A' Low"));
  ((str "P2547"), (str "Torque Management Request Input Signal 'A' High"));
  ((str "P2548"), (str "Torque Management Request Input Signal 'B'"));
  ((str "P2549"), (str "Torque Management Request Input Signal 'B' Range/Performance"));
  ((str "P2550"), (str "Torque Management Request Input Signal 'B' Low"));
  ((str "P2551"), (str "Torque Management Request Input Signal 'B' High"));
  ((str "P2552"), (str "Throttle/Fuel Inhibit Circuit"));
  ((str "P2553"), (str "Throttle/Fuel Inhibit Circuit Range/Performance"));
  ((str "P2554"), (str "Throttle/Fuel Inhibit Circuit Low"));
  ((str "P2555"), (str "Throttle/Fuel Inhibit Circuit High"));
  ((str "P2556"), (str "Engine Coolant Level Sensor/Switch Circuit"));
  ((str "P2557"), (str "Engine Coolant Level Sensor/Switch Circuit Range/Performance"));
  ((str "P2558"), (str "Engine Coolant Level Sensor/Switch Circuit Low"));
  ((str "P2559"), (str "Engine Coolant Level Sensor/Switch Circuit High"));
  ((str "P2560"), (str "Engine Coolant Level Low"));
  ((str "P2561"), (str "A/C Control Module Requested MIL Illumination"));
  ((str "P2562"), (str "Turbocharger Boost Control Position Sensor Circuit"));
  ((str "P2563"), (str "Turbocharger Boost Control Position Sensor Circuit Range/Performance"));
  ((str "P2564"), (str "Turbocharger Boost Control Position Sensor Circuit Low"));
  ((str "P2565"), (str "Turbocharger Boost Control Position Sensor Circuit High"));
  ((str "P2566"), (str "Turbocharger Boost Control Position Sensor Circuit Intermittent"));
  ((str "P2567"), (str "Direct Ozone Reduction Catalyst Temperature Sensor Circuit"));
  ((str "P2568"), (str "Direct Ozone Reduction Catalyst Temperature Sensor Circuit Range/Performance"));
  ((str "P2569"), (str "Direct Ozone Reduction Catalyst Temperature Sensor Circuit Low"));
  ((str "P2570"), (str "Direct Ozone Reduction Catalyst Temperature Sensor Circuit High"));
  ((str "P2571"), (str "Direct Ozone Reduction Catalyst Temperature Sensor Circuit Intermittent/Erratic"));
  ((str "P2572"), (str "Direct Ozone Reduction Catalyst Deterioration Sensor Circuit"));
  ((str "P2573"), (str "Direct Ozone Reduction Catalyst Deterioration Sensor Circuit Range/Performance"));
  ((str "P2574"), (str "Direct Ozone Reduction Catalyst Deterioration Sensor Circuit Low"));
  ((str "P2575"), (str "Direct Ozone Reduction Catalyst Deterioration Sensor Circuit High"));
  ((str "P2576"), (str "Direct Ozone Reduction Catalyst Deterioration Sensor Circuit Intermittent/Erratic"));
  ((str "P2577"), (str "Direct Ozone Reduction Catalyst Efficiency Below Threshold"));
  ((str "P2600"), (str "Coolant Pump Control Circuit/Open"));
  ((str "P2601"), (str "Coolant Pump Control Circuit Range/Performance"));
  ((str "P2602"), (str "Coolant Pump Control Circuit Low"));
  ((str "P2603"), (str "Coolant Pump Control Circuit High"));
  ((str "P2604"), (str "Intake Air Heater 'A' Circuit Range/Performance"));
  ((str "P2605"), (str "Intake Air Heater 'A' Circuit/Open"));
  ((str "P2606"), (str "Intake Air Heater 'B' Circuit Range/Performance"));
  ((str "P2607"), (str "Intake Air Heater 'B' Circuit Low"));
  ((str "P2608"), (str "Intake Air Heater 'B' Circuit High"));
  ((str "P2609"), (str "Intake Air Heater System Performance"));
  ((str "P2610"), (str "ECM/PCM Internal Engine Off Timer Performance"));
  ((str "P2611"), (str "A/C Refrigerant Distribution Valve Control Circuit/Open"));
  ((str "P2612"), (str "A/C Refrigerant Distribution Valve Control Circuit Low"));
  ((str "P2613"), (str "A/C Refrigerant Distribution Valve Control Circuit High"));
  ((str "P2614"), (str "Camshaft Position Signal Output Circuit/Open"));
  ((str "P2615"), (str "Camshaft Position Signal Output Circuit Low"));
  ((str "P2616"), (str "Camshaft Position Signal Output Circuit High"));
  ((str "P2617"), (str "Crankshaft Position Signal Output Circuit/Open"));
  ((str "P2618"), (str "Crankshaft Position Signal Output Circuit Low"));
  ((str "P2619"), (str "Crankshaft Position Signal Output Circuit High"));
  ((str "P2620"), (str "Throttle Position Output Circuit/Open"));
  ((str "P2621"), (str "Throttle Position Output Circuit Low"));
  ((str "P2622"), (str "Throttle Position Output Circuit High"));
  ((str "P2623"), (str "Injector Control Pressure Regulator Circuit/Open"));
  ((str "P2624"), (str "Injector Control Pressure Regulator Circuit Low"));
  ((str "P2625"), (str "Injector Control Pressure Regulator Circuit High"));
  ((str "P2626"), (str "O2 Sensor Pumping Current Trim Circuit/Open"));
  ((str "P2627"), (str "O2 Sensor Pumping Current Trim Circuit Low"));
  ((str "P2628"), (str "O2 Sensor Pumping Current Trim Circuit High"));
  ((str "P2629"), (str "O2 Sensor Pumping Current Trim Circuit/Open"));
  ((str "P2630"), (str "O2 Sensor Pumping Current Trim Circuit Low"));
  ((str "P2631"), (str "O2 Sensor Pumping Current Trim Circuit High"));
  ((str "P2632"), (str "Fuel Pump 'B' Control Circuit /Open"));
  ((str "P2633"), (str "Fuel Pump 'B' Control Circuit Low"));
  ((str "P2634"), (str "Fuel Pump 'B' Control Circuit High"));
  ((str "P2635"), (str "Fuel Pump 'A' Low Flow / Performance"));
  ((str "P2636"), (str "Fuel Pump 'B' Low Flow / Performance"));
  ((str "P2637"), (str "Torque Management Feedback Signal 'A'"));
  ((str "P2638"), (str "Torque Management Feedback Signal 'A' Range/Performance"));
  ((str "P2639"), (str "Torque Management Feedback Signal 'A' Low"));
  ((str "P2640"), (str "Torque Management Feedback Signal 'A' High"));
  ((str "P2641"), (str "Torque Management Feedback Signal 'B'"));
  ((str "P2642"), (str "Torque Management Feedback Signal 'B' Range/Performance"));
  ((str "P2643"), (str "Torque Management Feedback Signal 'B' Low"));
  ((str "P2644"), (str "Torque Management Feedback Signal 'B' High"));
  ((str "P2645"), (str "'A' Rocker Arm Actuator Control Circuit/Open"));
  ((str "P2646"), (str "'A' Rocker Arm Actuator System Performance or Stuck Off"));
  ((str "P2647"), (str "'A' Rocker Arm Actuator System Stuck On"));
  ((str "P2648"), (str "'A' Rocker Arm Actuator Control Circuit Low"));
  ((str "P2649"), (str "'A' Rocker Arm Actuator Control Circuit High"));
  ((str "P2650"), (str "'B' Rocker Arm Actuator Control Circuit/Open"));
  ((str "P2651"), (str "'B' Rocker Arm Actuator System Performance or Stuck Off"));
  ((str "P2652"), (str "'B' Rocker Arm Actuator System Stuck On"));
  ((str "P2653"), (str "'B' Rocker Arm Actuator Control Circuit Low"));
  ((str "P2654"), (str "'B' Rocker Arm Actuator Control Circuit High"));
  ((str "P2655"), (str "'A' Rocker Arm Actuator Control Circuit/Open"));
  ((str "P2656"), (str "'A' Rocker Arm Actuator System Performance or Stuck Off"));
  ((str "P2657"), (str "'A' Rocker Arm Actuator System Stuck On"));
  ((str "P2658"), (str "'A' Rocker Arm Actuator Control Circuit Low"));
  ((str "P2659"), (str "'A' Rocker Arm Actuator Control Circuit High"));
  ((str "P2660"), (str "'B' Rocker Arm Actuator Control Circuit/Open"));
  ((str "P2661"), (str "'B' Rocker Arm Actuator System Performance or Stuck Off"));
  ((str "P2662"), (str "'B' Rocker Arm Actuator System Stuck On"));
  ((str "P2663"), (str "'B' Rocker Arm Actuator Control Circuit Low"));
  ((str "P2664"), (str "'B' Rocker Arm Actuator Control Circuit High"));
  ((str "P2665"), (str "Fuel Shutoff Valve 'B' Control Circuit/Open"));
  ((str "P2666"), (str "Fuel Shutoff Valve 'B' Control Circuit Low"));
  ((str "P2667"), (str "Fuel Shutoff Valve 'B' Control Circuit High"));
  ((str "P2668"), (str "Fuel Mode Indicator Lamp Control Circuit"));
  ((str "P2669"), (str "Actuator Supply Voltage 'B' Circuit /Open"));
  ((str "P2670"), (str "Actuator Supply Voltage 'B' Circuit Low"));
  ((str "P2671"), (str "Actuator Supply Voltage 'B' Circuit High"));
  ((str "P2700"), (str "Transmission Friction Element 'A' Apply Time Range/Performance"));
  ((str "P2701"), (str "Transmission Friction Element 'B' Apply Time Range/Performance"));
  ((str "P2702"), (str "Transmission Friction Element 'C' Apply Time Range/Performance"));
  ((str "P2703"), (str "Transmission Friction Element 'D' Apply Time Range/Performance"));
  ((str "P2704"), (str "Transmission Friction Element 'E' Apply Time Range/Performance"));
  ((str "P2705"), (str "Transmission Friction Element 'F' Apply Time Range/Performance"));
  ((str "P2706"), (str "Shift Solenoid 'F'"));
  ((str "P2707"), (str "Shift Solenoid 'F' Performance or Stuck Off"));
  ((str "P2708"), (str "Shift Solenoid 'F' Stuck On"));
  ((str "P2709"), (str "Shift Solenoid 'F' Electrical"));
  ((str "P2710"), (str "Shift Solenoid 'F' Intermittent"));
  ((str "P2711"), (str "Unexpected Mechanical Gear Disengagement"));
  ((str "P2712"), (str "Hydraulic Power Unit Leakage"));
  ((str "P2713"), (str "Pressure Control Solenoid 'D'"));
  ((str "P2714"), (str "Pressure Control Solenoid 'D' Performance or Stuck Off"));
  ((str "P2715"), (str "Pressure Control Solenoid 'D' Stuck On"));
  ((str "P2716"), (str "Pressure Control Solenoid 'D' Electrical"));
  ((str "P2717"), (str "Pressure Control Solenoid 'D' Intermittent"));
  ((str "P2718"), (str "Pressure Control Solenoid 'D' Control Circuit / Open"));
  ((str "P2719"), (str "Pressure Control Solenoid 'D' Control Circuit Range/Performance"));
  ((str "P2720"), (str "Pressure Control Solenoid 'D' Control Circuit Low"));
  ((str "P2721"), (str "Pressure Control Solenoid 'D' Control Circuit High"));
  ((str "P2722"), (str "Pressure Control Solenoid 'E'"));
  ((str "P2723"), (str "Pressure Control Solenoid 'E' Performance or Stuck Off"));
  ((str "P2724"), (str "Pressure Control Solenoid 'E' Stuck On"));
  ((str "P2725"), (str "Pressure Control Solenoid 'E' Electrical"));
  ((str "P2726"), (str "Pressure Control Solenoid 'E' Intermittent"));
  ((str "P2727"), (str "Pressure Control Solenoid 'E' Control Circuit / Open"));
  ((str "P2728"), (str "Pressure Control Solenoid 'E' Control Circuit Range/Performance"));
  ((str "P2729"), (str "Pressure Control Solenoid 'E' Control Circuit Low"));
  ((str "P2730"), (str "Pressure Control Solenoid 'E' Control Circuit High"));
  ((str "P2731"), (str "Pressure Control Solenoid 'F'"));
  ((str "P2732"), (str "Pressure Control Solenoid 'F' Performance or Stuck Off"));
  ((str "P2733"), (str "Pressure Control Solenoid 'F' Stuck On"));
  ((str "P2734"), (str "Pressure Control Solenoid 'F' Electrical"));
  ((str "P2735"), (str "Pressure Control Solenoid 'F' Intermittent"));
  ((str "P2736"), (str "Pressure Control Solenoid 'F' Control Circuit/Open"));
  ((str "P2737"), (str "Pressure Control Solenoid 'F' Control Circuit Range/Performance"));
  ((str "P2738"), (str "Pressure Control Solenoid 'F' Control Circuit Low"));
  ((str "P2739"), (str "Pressure Control Solenoid 'F' Control Circuit High"));
  ((str "P2740"), (str "Transmission Fluid Temperature Sensor 'B' Circuit"));
  ((str "P2741"), (str "Transmission Fluid Temperature Sensor 'B' Circuit Range Performance"));
  ((str "P2742"), (str "Transmission Fluid Temperature Sensor 'B' Circuit Low"));
  ((str "P2743"), (str "Transmission Fluid Temperature Sensor 'B' Circuit High"));
  ((str "P2744"), (str "Transmission Fluid Temperature Sensor 'B' Circuit Intermittent"));
  ((str "P2745"), (str "Intermediate Shaft Speed Sensor 'B' Circuit"));
  ((str "P2746"), (str "Intermediate Shaft Speed Sensor 'B' Circuit Range/Performance"));
  ((str "P2747"), (str "Intermediate Shaft Speed Sensor 'B' Circuit No Signal"));
  ((str "P2748"), (str "Intermediate Shaft Speed Sensor 'B' Circuit Intermittent"));
  ((str "P2749"), (str "Intermediate Shaft Speed Sensor 'C' Circuit"));
  ((str "P2750"), (str "Intermediate Shaft Speed Sensor 'C' Circuit Range/Performance"));
  ((str "P2751"), (str "Intermediate Shaft Speed Sensor 'C' Circuit No Signal"));
  ((str "P2752"), (str "Intermediate Shaft Speed Sensor 'C' Circuit Intermittent"));
  ((str "P2753"), (str "Transmission Fluid Cooler Control Circuit/Open"));
  ((str "P2754"), (str "Transmission Fluid Cooler Control Circuit Low"));
  ((str "P2755"), (str "Transmission Fluid Cooler Control Circuit High"));
  ((str "P2756"), (str "Torque Converter Clutch Pressure Control Solenoid"));
  ((str "P2757"), (str "Torque Converter Clutch Pressure Control Solenoid Control Circuit Performance or Stuck Off"));
  ((str "P2758"), (str "Torque Converter Clutch Pressure Control Solenoid Control Circuit Stuck On"));
  ((str "P2759"), (str "Torque Converter Clutch Pressure Control Solenoid Control Circuit Electrical"));
  ((str "P2760"), (str "Torque Converter Clutch Pressure Control Solenoid Control Circuit Intermittent"));
  ((str "P2761"), (str "Torque Converter Clutch Pressure Control Solenoid Control Circuit/Open"));
  ((str "P2762"), (str "Torque Converter Clutch Pressure Control Solenoid Control Circuit Range/Performance"));
  ((str "P2763"), (str "Torque Converter Clutch Pressure Control Solenoid Control Circuit High"));
  ((str "P2764"), (str "Torque Converter Clutch Pressure Control Solenoid Control Circuit Low"));
  ((str "P2765"), (str "Input/Turbine Speed Sensor 'B' Circuit"));
  ((str "P2766"), (str "Input/Turbine Speed Sensor 'B' Circuit Range/Performance"));
  ((str "P2767"), (str "Input/Turbine Speed Sensor 'B' Circuit No Signal"));
  ((str "P2768"), (str "Input/Turbine Speed Sensor 'B' Circuit Intermittent"));
  ((str "P2769"), (str "Torque Converter Clutch Circuit Low"));
  ((str "P2770"), (str "Torque Converter Clutch Circuit High"));
  ((str "P2771"), (str "Four Wheel Drive (4WD) Low Switch Circuit"));
  ((str "P2772"), (str "Four Wheel Drive (4WD) Low Switch Circuit Range/Performance"));
  ((str "P2773"), (str "Four Wheel Drive (4WD) Low Switch Circuit Low"));
  ((str "P2774"), (str "Four Wheel Drive (4WD) Low Switch Circuit High"));
  ((str "P2775"), (str "Upshift Switch Circuit Range/Performance"));
  ((str "P2776"), (str "Upshift Switch Circuit Low"));
  ((str "P2777"), (str "Upshift Switch Circuit High"));
  ((str "P2778"), (str "Upshift Switch Circuit Intermittent/Erratic"));
  ((str "P2779"), (str "Downshift Switch Circuit Range/Performance"));
  ((str "P2780"), (str "Downshift Switch Circuit Low"));
  ((str "P2781"), (str "Downshift Switch Circuit High"));
  ((str "P2782"), (str "Downshift Switch Circuit Intermittent/Erratic"));
  ((str "P2783"), (str "Torque Converter Temperature Too High"));
  ((str "P2784"), (str "Input/Turbine Speed Sensor 'A'/'B' Correlation"));
  ((str "P2785"), (str "Clutch Actuator Temperature Too High"));
  ((str "P2786"), (str "Gear Shift Actuator Temperature Too High"));
  ((str "P2787"), (str "Clutch Temperature Too High"));
  ((str "P2788"), (str "Auto Shift Manual Adaptive Learning at Limit"));
  ((str "P2789"), (str "Clutch Adaptive Learning at Limit"));
  ((str "P2790"), (str "Gate Select Direction Circuit"));
  ((str "P2791"), (str "Gate Select Direction Circuit Low"));
  ((str "P2792"), (str "Gate Select Direction Circuit High"));
  ((str "P2793"), (str "Gear Shift Direction Circuit"));
  ((str "P2794"), (str "Gear Shift Direction Circuit Low"));
  ((str "P2795"), (str "Gear Shift Direction Circuit High"));
  ((str "P2A00"), (str "O2 Sensor Circuit Range/Performance"));
  ((str "P2A01"), (str "O2 Sensor Circuit Range/Performance"));
  ((str "P2A02"), (str "O2 Sensor Circuit Range/Performance"));
  ((str "P2A03"), (str "O2 Sensor Circuit Range/Performance"));
  ((str "P2A04"), (str "O2 Sensor Circuit Range/Performance"));
  ((str "P2A05"), (str "O2 Sensor Circuit Range/Performance"));
  ((str "P3400"), (str "Cylinder Deactivation System"));
  ((str "P3401"), (str "Cylinder 1 Deactivation/lntake Valve Control Circuit/Open"));
  ((str "P3402"), (str "Cylinder 1 Deactivation/lntake Valve Control Performance"));
  ((str "P3403"), (str "Cylinder 1 Deactivation/lntake Valve Control Circuit Low"));
  ((str "P3404"), (str "Cylinder 1 Deactivation/lntake Valve Control Circuit High"));
  ((str "P3405"), (str "Cylinder 1 Exhaust Valve Control Circuit/Open"));
  ((str "P3406"), (str "Cylinder 1 Exhaust Valve Control Performance"));
  ((str "P3407"), (str "Cylinder 1 Exhaust Valve Control Circuit Low"));
  ((str "P3408"), (str "Cylinder 1 Exhaust Valve Control Circuit High"));
  ((str "P3409"), (str "Cylinder 2 Deactivation/lntake Valve Control Circuit/Open"));
  ((str "P3410"), (str "Cylinder 2 Deactivation/lntake Valve Control Performance"));
  ((str "P3411"), (str "Cylinder 2 Deactivation/lntake Valve Control Circuit Low"));
  ((str "P3412"), (str "Cylinder 2 Deactivation/lntake Valve Control Circuit High"));
  ((str "P3413"), (str "Cylinder 2 Exhaust Valve Control Circuit/Open"));
  ((str "P3414"), (str "Cylinder 2 Exhaust Valve Control Performance"));
  ((str "P3415"), (str "Cylinder 2 Exhaust Valve Control Circuit Low"));
  ((str "P3416"), (str "Cylinder 2 Exhaust Valve Control Circuit High"));
  ((str "P3417"), (str "Cylinder 3 Deactivation/lntake Valve Control Circuit/Open"));
  ((str "P3418"), (str "Cylinder 3 Deactivation/lntake Valve Control Performance"));
  ((str "P3419"), (str "Cylinder 3 Deactivation/lntake Valve Control Circuit Low"));
  ((str "P3420"), (str "Cylinder 3 Deactivation/lntake Valve Control Circuit High"));
  ((str "P3421"), (str "Cylinder 3 Exhaust Valve Control Circuit/Open"));
  ((str "P3422"), (str "Cylinder 3 Exhaust Valve Control Performance"));
  ((str "P3423"), (str "Cylinder 3 Exhaust Valve Control Circuit Low"));
  ((str "P3424"), (str "Cylinder 3 Exhaust Valve Control Circuit High"));
  ((str "P3425"), (str "Cylinder 4 Deactivation/lntake Valve Control Circuit/Open"));
  ((str "P3426"), (str "Cylinder 4 Deactivation/lntake Valve Control Performance"));
  ((str "P3427"), (str "Cylinder 4 Deactivation/lntake Valve Control Circuit Low"));
  ((str "P3428"), (str "Cylinder 4 Deactivation/lntake Valve Control Circuit High"));
  ((str "P3429"), (str "Cylinder 4 Exhaust Valve Control Circuit/Open"));
  ((str "P3430"), (str "Cylinder 4 Exhaust Valve Control Performance"));
  ((str "P3431"), (str "Cylinder 4 Exhaust Valve Control Circuit Low"));
  ((str "P3432"), (str "Cylinder 4 Exhaust Valve Control Circuit High"));
  ((str "P3433"), (str "Cylinder 5 Deactivation/lntake Valve Control Circuit/Open"));
  ((str "P3434"), (str "Cylinder 5 Deactivation/lntake Valve Control Performance"));
  ((str "P3435"), (str "Cylinder 5 Deactivation/lntake Valve Control Circuit Low"));
  ((str "P3436"), (str "Cylinder 5 Deactivation/lntake Valve Control Circuit High"));
  ((str "P3437"), (str "Cylinder 5 Exhaust Valve Control Circuit/Open"));
  ((str "P3438"), (str "Cylinder 5 Exhaust Valve Control Performance"));
  ((str "P3439"), (str "Cylinder 5 Exhaust Valve Control Circuit Low"));
  ((str "P3440"), (str "Cylinder 5 Exhaust Valve Control Circuit High"));
  ((str "P3441"), (str "Cylinder 6 Deactivation/lntake Valve Control Circuit/Open"));
  ((str "P3442"), (str "Cylinder 6 Deactivation/lntake Valve Control Performance"));
  ((str "P3443"), (str "Cylinder 6 Deactivation/lntake Valve Control Circuit Low"));
  ((str "P3444"), (str "Cylinder 6 Deactivation/lntake Valve Control Circuit High"));
  ((str "P3445"), (str "Cylinder 6 Exhaust Valve Control Circuit/Open"));
  ((str "P3446"), (str "Cylinder 6 Exhaust Valve Control Performance"));
  ((str "P3447"), (str "Cylinder 6 Exhaust Valve Control Circuit Low"));
  ((str "P3448"), (str "Cylinder 6 Exhaust Valve Control Circuit High"));
  ((str "P3449"), (str "Cylinder 7 Deactivation/lntake Valve Control Circuit/Open"));
  ((str "P3450"), (str "Cylinder 7 Deactivation/lntake Valve Control Performance"));
  ((str "P3451"), (str "Cylinder 7 Deactivation/lntake Valve Control Circuit Low"));
  ((str "P3452"), (str "Cylinder 7 Deactivation/lntake Valve Control Circuit High"));
  ((str "P3453"), (str "Cylinder 7 Exhaust Valve Control Circuit/Open"));
  ((str "P3454"), (str "Cylinder 7 Exhaust Valve Control Performance"));
  ((str "P3455"), (str "Cylinder 7 Exhaust Valve Control Circuit Low"));
  ((str "P3456"), (str "Cylinder 7 Exhaust Valve Control Circuit High"));
  ((str "P3457"), (str "Cylinder 8 Deactivation/lntake Valve Control Circuit/Open"));
  ((str "P3458"), (str "Cylinder 8 Deactivation/lntake Valve Control Performance"));
  ((str "P3459"), (str "Cylinder 8 Deactivation/lntake Valve Control Circuit Low"));
  ((str "P3460"), (str "Cylinder 8 Deactivation/lntake Valve Control Circuit High"));
  ((str "P3461"), (str "Cylinder 8 Exhaust Valve Control Circuit/Open"));
  ((str "P3462"), (str "Cylinder 8 Exhaust Valve Control Performance"));
  ((str "P3463"), (str "Cylinder 8 Exhaust Valve Control Circuit Low"));
  ((str "P3464"), (str "Cylinder 8 Exhaust Valve Control Circuit High"));
  ((str "P3465"), (str "Cylinder 9 Deactivation/lntake Valve Control Circuit/Open"));
  ((str "P3466"), (str "Cylinder 9 Deactivation/lntake Valve Control Performance"));
  ((str "P3467"), (str "Cylinder 9 Deactivation/lntake Valve Control Circuit Low"));
  ((str "P3468"), (str "Cylinder 9 Deactivation/lntake Valve Control Circuit High"));
  ((str "P3469"), (str "Cylinder 9 Exhaust Valve Control Circuit/Open"));
  ((str "P3470"), (str "Cylinder 9 Exhaust Valve Control Performance"));
  ((str "P3471"), (str "Cylinder 9 Exhaust Valve Control Circuit Low"));
  ((str "P3472"), (str "Cylinder 9 Exhaust Valve Control Circuit High"));
  ((str "P3473"), (str "Cylinder 10 Deactivation/lntake Valve Control Circuit/Open"));
  ((str "P3474"), (str "Cylinder 10 Deactivation/lntake Valve Control Performance"));
  ((str "P3475"), (str "Cylinder 10 Deactivation/lntake Valve Control Circuit Low"));
  ((str "P3476"), (str "Cylinder 10 Deactivation/lntake Valve Control Circuit High"));
  ((str "P3477"), (str "Cylinder 10 Exhaust Valve Control Circuit/Open"));
  ((str "P3478"), (str "Cylinder 10 Exhaust Valve Control Performance"));
  ((str "P3479"), (str "Cylinder 10 Exhaust Valve Control Circuit Low"));
  ((str "P3480"), (str "Cylinder 10 Exhaust Valve Control Circuit High"));
  ((str "P3481"), (str "Cylinder 11 Deactivation/lntake Valve Control Circuit/Open"));
  ((str "P3482"), (str "Cylinder 11 Deactivation/lntake Valve Control Performance"));
  ((str "P3483"), (str "Cylinder 11 Deactivation/lntake Valve Control Circuit Low"));
  ((str "P3484"), (str "Cylinder 11 Deactivation/lntake Valve Control Circuit High"));
  ((str "P3485"), (str "Cylinder 11 Exhaust Valve Control Circuit/Open"));
  ((str "P3486"), (str "Cylinder 11 Exhaust Valve Control Performance"));
  ((str "P3487"), (str "Cylinder 11 Exhaust Valve Control Circuit Low"));
  ((str "P3488"), (str "Cylinder 11 Exhaust Valve Control Circuit High"));
  ((str "P3489"), (str "Cylinder 12 Deactivation/lntake Valve Control Circuit/Open"));
  ((str "P3490"), (str "Cylinder 12 Deactivation/lntake Valve Control Performance"));
  ((str "P3491"), (str "Cylinder 12 Deactivation/lntake Valve Control Circuit Low"));
  ((str "P3492"), (str "Cylinder 12 Deactivation/lntake Valve Control Circuit High"));
  ((str "P3493"), (str "Cylinder 12 Exhaust Valve Control Circuit/Open"));
  ((str "P3494"), (str "Cylinder 12 Exhaust Valve Control Performance"));
  ((str "P3495"), (str "Cylinder 12 Exhaust Valve Control Circuit Low"));
  ((str "P3496"), (str "Cylinder 12 Exhaust Valve Control Circuit High"));
  ((str "P3497"), (str "Cylinder Deactivation System"));
  ((str "U0001"), (str "High Speed CAN Communication Bus"));
  ((str "U0002"), (str "High Speed CAN Communication Bus (Performance)"));
  ((str "U0003"), (str "High Speed CAN Communication Bus (Open)"));
  ((str "U0004"), (str "High Speed CAN Communication Bus (Low)"));
  ((str "U0005"), (str "High Speed CAN Communication Bus (High)"));
  ((str "U0006"), (str "High Speed CAN Communication Bus (Open)"));
  ((str "U0007"), (str "High Speed CAN Communication Bus (Low)"));
  ((str "U0008"), (str "High Speed CAN Communication Bus (High)"));
  ((str "U0009"), (str "High Speed CAN Communication Bus (shorted to Bus)"));
  ((str "U0010"), (str "Medium Speed CAN Communication Bus"));
  ((str "U0011"), (str "Medium Speed CAN Communication Bus (Performance)"));
  ((str "U0012"), (str "Medium Speed CAN Communication Bus (Open)"));
  ((str "U0013"), (str "Medium Speed CAN Communication Bus (Low)"));
  ((str "U0014"), (str "Medium Speed CAN Communication Bus (High)"));
  ((str "U0015"), (str "Medium Speed CAN Communication Bus (Open)"));
  ((str "U0016"), (str "Medium Speed CAN Communication Bus (Low)"));
  ((str "U0017"), (str "Medium Speed CAN Communication Bus (High)"));
  ((str "U0018"), (str "Medium Speed CAN Communication Bus (shorted to Bus)"));
  ((str "U0019"), (str "Low Speed CAN Communication Bus"));
  ((str "U0020"), (str "Low Speed CAN Communication Bus (Performance)"));
  ((str "U0021"), (str "Low Speed CAN Communication Bus (Open)"));
  ((str "U0022"), (str "Low Speed CAN Communication Bus (Low)"));
  ((str "U0023"), (str "Low Speed CAN Communication Bus (High)"));
  ((str "U0024"), (str "Low Speed CAN Communication Bus (Open)"));
  ((str "U0025"), (str "Low Speed CAN Communication Bus (Low)"));
  ((str "U0026"), (str "Low Speed CAN Communication Bus (High)"));
  ((str "U0027"), (str "Low Speed CAN Communication Bus (shorted to Bus)"));
  ((str "U0028"), (str "Vehicle Communication Bus A"));
  ((str "U0029"), (str "Vehicle Communication Bus A (Performance)"));
  ((str "U0030"), (str "Vehicle Communication Bus A (Open)"));
  ((str "U0031"), (str "Vehicle Communication Bus A (Low)"));
  ((str "U0032"), (str "Vehicle Communication Bus A (High)"));
  ((str "U0033"), (str "Vehicle Communication Bus A (Open)"));
  ((str "U0034"), (str "Vehicle Communication Bus A (Low)"));
  ((str "U0035"), (str "Vehicle Communication Bus A (High)"));
  ((str "U0036"), (str "Vehicle Communication Bus A (shorted to Bus A)"));
  ((str "U0037"), (str "Vehicle Communication Bus B"));
  ((str "U0038"), (str "Vehicle Communication Bus B (Performance)"));
  ((str "U0039"), (str "Vehicle Communication Bus B (Open)"));
  ((str "U0040"), (str "Vehicle Communication Bus B (Low)"));
  ((str "U0041"), (str "Vehicle Communication Bus B (High)"));
  ((str "U0042"), (str "Vehicle Communication Bus B (Open)"));
  ((str "U0043"), (str "Vehicle Communication Bus B (Low)"));
  ((str "U0044"), (str "Vehicle Communication Bus B (High)"));
  ((str "U0045"), (str "Vehicle Communication Bus B (shorted to Bus B)"));
  ((str "U0046"), (str "Vehicle Communication Bus C"));
  ((str "U0047"), (str "Vehicle Communication Bus C (Performance)"));
  ((str "U0048"), (str "Vehicle Communication Bus C (Open)"));
  ((str "U0049"), (str "Vehicle Communication Bus C (Low)"));
  ((str "U0050"), (str "Vehicle Communication Bus C (High)"));
  ((str "U0051"), (str "Vehicle Communication Bus C (Open)"));
  ((str "U0052"), (str "Vehicle Communication Bus C (Low)"));
  ((str "U0053"), (str "Vehicle Communication Bus C (High)"));
  ((str "U0054"), (str "Vehicle Communication Bus C (shorted to Bus C)"));
  ((str "U0055"), (str "Vehicle Communication Bus D"));
  ((str "U0056"), (str "Vehicle Communication Bus D (Performance)"));
  ((str "U0057"), (str "Vehicle Communication Bus D (Open)"));
  ((str "U0058"), (str "Vehicle Communication Bus D (Low)"));
  ((str "U0059"), (str "Vehicle Communication Bus D (High)"));
  ((str "U0060"), (str "Vehicle Communication Bus D (Open)"));
  ((str "U0061"), (str "Vehicle Communication Bus D (Low)"));
  ((str "U0062"), (str "Vehicle Communication Bus D (High)"));
  ((str "U0063"), (str "Vehicle Communication Bus D (shorted to Bus D)"));
  ((str "U0064"), (str "Vehicle Communication Bus E"));
  ((str "U0065"), (str "Vehicle Communication Bus E (Performance)"));
  ((str "U0066"), (str "Vehicle Communication Bus E (Open)"));
  ((str "U0067"), (str "Vehicle Communication Bus E (Low)"));
  ((str "U0068"), (str "Vehicle Communication Bus E (High)"));
  ((str "U0069"), (str "Vehicle Communication Bus E (Open)"));
  ((str "U0070"), (str "Vehicle Communication Bus E (Low)"));
  ((str "U0071"), (str "Vehicle Communication Bus E (High)"));
  ((str "U0072"), (str "Vehicle Communication Bus E (shorted to Bus E)"));
  ((str "U0073"), (str "Control Module Communication Bus Off"));
  ((str "U0074"), (str "Reserved by J2012"));
  ((str "U0075"), (str "Reserved by J2012"));
  ((str "U0076"), (str "Reserved by J2012"));
  ((str "U0077"), (str "Reserved by J2012"));
  ((str "U0078"), (str "Reserved by J2012"));
  ((str "U0079"), (str "Reserved by J2012"));
  ((str "U0080"), (str "Reserved by J2012"));
  ((str "U0081"), (str "Reserved by J2012"));
  ((str "U0082"), (str "Reserved by J2012"));
  ((str "U0083"), (str "Reserved by J2012"));
  ((str "U0084"), (str "Reserved by J2012"));
  ((str "U0085"), (str "Reserved by J2012"));
  ((str "U0086"), (str "Reserved by J2012"));
  ((str "U0087"), (str "Reserved by J2012"));
  ((str "U0088"), (str "Reserved by J2012"));
  ((str "U0089"), (str "Reserved by J2012"));
  ((str "U0090"), (str "Reserved by J2012"));
  ((str "U0091"), (str "Reserved by J2012"));
  ((str "U0092"), (str "Reserved by J2012"));
  ((str "U0093"), (str "Reserved by J2012"));
  ((str "U0094"), (str "Reserved by J2012"));
  ((str "U0095"), (str "Reserved by J2012"));
  ((str "U0096"), (str "Reserved by J2012"));
  ((str "U0097"), (str "Reserved by J2012"));
  ((str "U0098"), (str "Reserved by J2012"));
  ((str "U0099"), (str "Reserved by J2012"));
  ((str "U0100"), (str "Lost Communication With ECM/PCM A"));
  ((str "U0101"), (str "Lost Communication with TCM"));
  ((str "U0102"), (str "Lost Communication with Transfer Case Control Module"));
  ((str "U0103"), (str "Lost Communication With Gear Shift Module"));
  ((str "U0104"), (str "Lost Communication With Cruise Control Module"));
  ((str "U0105"), (str "Lost Communication With Fuel Injector Control Module"));
  ((str "U0106"), (str "Lost Communication With Glow Plug Control Module"));
  ((str "U0107"), (str "Lost Communication With Throttle Actuator Control Module"));
  ((str "U0108"), (str "Lost Communication With Alternative Fuel Control Module"));
  ((str "U0109"), (str "Lost Communication With Fuel Pump Control Module"));
  ((str "U0110"), (str "Lost Communication With Drive Motor Control Module"));
  ((str "U0111"), (str "Lost Communication With Battery Energy Control Module 'A'"));
  ((str "U0112"), (str "Lost Communication With Battery Energy Control Module 'B'"));
  ((str "U0113"), (str "Lost Communication With Emissions Critical Control Information"));
  ((str "U0114"), (str "Lost Communication With Four-Wheel Drive Clutch Control Module"));
  ((str "U0115"), (str "Lost Communication With ECM/PCM B"));
  ((str "U0116"), (str "Reserved by J2012"));
  ((str "U0117"), (str "Reserved by J2012"));
  ((str "U0118"), (str "Reserved by J2012"));
  ((str "U0119"), (str "Reserved by J2012"));
  ((str "U0120"), (str "Reserved by J2012"));
  ((str "U0121"), (str "Lost Communication With Anti-Lock Brake System (ABS) Control Module"));
  ((str "U0122"), (str "Lost Communication With Vehicle Dynamics Control Module"));
  ((str "U0123"), (str "Lost Communication With Yaw Rate Sensor Module"));
  ((str "U0124"), (str "Lost Communication With Lateral Acceleration Sensor Module"));
  ((str "U0125"), (str "Lost Communication With Multi-axis Acceleration Sensor Module"));
  ((str "U0126"), (str "Lost Communication With Steering Angle Sensor Module"));
  ((str "U0127"), (str "Lost Communication With Tire Pressure Monitor Module"));
  ((str "U0128"), (str "Lost Communication With Park Brake Control Module"));
  ((str "U0129"), (str "Lost Communication With Brake System Control Module"));
  ((str "U0130"), (str "Lost Communication With Steering Effort Control Module"));
  ((str "U0131"), (str "Lost Communication With Power Steering Control Module"));
  ((str "U0132"), (str "Lost Communication With Ride Level Control Module"));
  ((str "U0133"), (str "Reserved by J2012"));
  ((str "U0134"), (str "Reserved by J2012"));
  ((str "U0135"), (str "Reserved by J2012"));
  ((str "U0136"), (str "Reserved by J2012"));
  ((str "U0137"), (str "Reserved by J2012"));
  ((str "U0138"), (str "Reserved by J2012"));
  ((str "U0139"), (str "Reserved by J2012"));
  ((str "U0140"), (str "Lost Communication With Body Control Module"));
  ((str "U0141"), (str "Lost Communication With Body Control Module 'A'"));
  ((str "U0142"), (str "Lost Communication With Body Control Module 'B'"));
  ((str "U0143"), (str "Lost Communication With Body Control Module 'C'"));
  ((str "U0144"), (str "Lost Communication With Body Control Module 'D'"));
  ((str "U0145"), (str "Lost Communication With Body Control Module 'E'"));
  ((str "U0146"), (str "Lost Communication With Gateway 'A'"));
  ((str "U0147"), (str "Lost Communication With Gateway 'B'"));
  ((str "U0148"), (str "Lost Communication With Gateway 'C'"));
  ((str "U0149"), (str "Lost Communication With Gateway 'D'"));
  ((str "U0150"), (str "Lost Communication With Gateway 'E'"));
  ((str "U0151"), (str "Lost Communication With Restraints Control Module"));
  ((str "U0152"), (str "Lost Communication With Side Restraints Control Module Left"));
  ((str "U0153"), (str "Lost Communication With Side Restraints Control Module Right"));
  ((str "U0154"), (str "Lost Communication With Restraints Occupant Sensing Control Module"));
  ((str "U0155"), (str "Lost Communication With Instrument Panel Cluster (IPC) Control Module"));
  ((str "U0156"), (str "Lost Communication With Information Center 'A'"));
  ((str "U0157"), (str "Lost Communication With Information Center 'B'"));
  ((str "U0158"), (str "Lost Communication With Head Up Display"));
  ((str "U0159"), (str "Lost Communication With Parking Assist Control Module"));
  ((str "U0160"), (str "Lost Communication With Audible Alert Control Module"));
  ((str "U0161"), (str "Lost Communication With Compass Module"));
  ((str "U0162"), (str "Lost Communication With Navigation Display Module"));
  ((str "U0163"), (str "Lost Communication With Navigation Control Module"));
  ((str "U0164"), (str "Lost Communication With HVAC Control Module"));
  ((str "U0165"), (str "Lost Communication With HVAC Control Module Rear"));
  ((str "U0166"), (str "Lost Communication With Auxiliary Heater Control Module"));
  ((str "U0167"), (str "Lost Communication With Vehicle Immobilizer Control Module"));
  ((str "U0168"), (str "Lost Communication With Vehicle Security Control Module"));
  ((str "U0169"), (str "Lost Communication With Sunroof Control Module"));
  ((str "U0170"), (str "Lost Communication With 'Restraints System Sensor A'"));
  ((str "U0171"), (str "Lost Communication With 'Restraints System Sensor B'"));
  ((str "U0172"), (str "Lost Communication With 'Restraints System Sensor C'"));
  ((str "U0173"), (str "Lost Communication With 'Restraints System Sensor D'"));
  ((str "U0174"), (str "Lost Communication With 'Restraints System Sensor E'"));
  ((str "U0175"), (str "Lost Communication With 'Restraints System Sensor F'"));
  ((str "U0176"), (str "Lost Communication With 'Restraints System Sensor G'"));
  ((str "U0177"), (str "Lost Communication With 'Restraints System Sensor H'"));
  ((str "U0178"), (str "Lost Communication With 'Restraints System Sensor I'"));
  ((str "U0179"), (str "Lost Communication With 'Restraints System Sensor J'"));
  ((str "U0180"), (str "Lost Communication With Automatic Lighting Control Module"));
  ((str "U0181"), (str "Lost Communication With Headlamp Leveling Control Module"));
  ((str "U0182"), (str "Lost Communication With Lighting Control Module Front"));
  ((str "U0183"), (str "Lost Communication With Lighting Control Module Rear"));
  ((str "U0184"), (str "Lost Communication With Radio"));
  ((str "U0185"), (str "Lost Communication With Antenna Control Module"));
  ((str "U0186"), (str "Lost Communication With Audio Amplifier"));
  ((str "U0187"), (str "Lost Communication With Digital Disc Player/Changer Module 'A'"));
  ((str "U0188"), (str "Lost Communication With Digital Disc Player/Changer Module 'B'"));
  ((str "U0189"), (str "Lost Communication With Digital Disc Player/Changer Module 'C'"));
  ((str "U0190"), (str "Lost Communication With Digital Disc Player/Changer Module 'D'"));
  ((str "U0191"), (str "Lost Communication With Television"));
  ((str "U0192"), (str "Lost Communication With Personal Computer"));
  ((str "U0193"), (str "Lost Communication With 'Digital Audio Control Module A'"));
  ((str "U0194"), (str "Lost Communication With 'Digital Audio Control Module B'"));
  ((str "U0195"), (str "Lost Communication With Subscription Entertainment Receiver Module"));
  ((str "U0196"), (str "Lost Communication With Rear Seat Entertainment Control Module"));
  ((str "U0197"), (str "Lost Communication With Telephone Control Module"));
  ((str "U0198"), (str "Lost Communication With Telematic Control Module"));
  ((str "U0199"), (str "Lost Communication With 'Door Control Module A'"));
  ((str "U0200"), (str "Lost Communication With 'Door Control Module B'"));
  ((str "U0201"), (str "Lost Communication With 'Door Control Module C'"));
  ((str "U0202"), (str "Lost Communication With 'Door Control Module D'"));
  ((str "U0203"), (str "Lost Communication With 'Door Control Module E'"));
  ((str "U0204"), (str "Lost Communication With 'Door Control Module F'"));
  ((str "U0205"), (str "Lost Communication With 'Door Control Module G'"));
  ((str "U0206"), (str "Lost Communication With Folding Top Control Module"));
  ((str "U0207"), (str "Lost Communication With Moveable Roof Control Module"));
  ((str "U0208"), (str "Lost Communication With 'Seat Control Module A'"));
  ((str "U0209"), (str "Lost Communication With 'Seat Control Module B'"));
  ((str "U0210"), (str "Lost Communication With 'Seat Control Module C'"));
  ((str "U0211"), (str "Lost Communication With 'Seat Control Module D'"));
  ((str "U0212"), (str "Lost Communication With Steering Column Control Module"));
  ((str "U0213"), (str "Lost Communication With Mirror Control Module"));
  ((str "U0214"), (str "Lost Communication With Remote Function Actuation"));
  ((str "U0215"), (str "Lost Communication With 'Door Switch A'"));
  ((str "U0216"), (str "Lost Communication With 'Door Switch B'"));
  ((str "U0217"), (str "Lost Communication With 'Door Switch C'"));
  ((str "U0218"), (str "Lost Communication With 'Door Switch D'"));
  ((str "U0219"), (str "Lost Communication With 'Door Switch E'"));
  ((str "U0220"), (str "Lost Communication With 'Door Switch F'"));
  ((str "U0221"), (str "Lost Communication With 'Door Switch G'"));
  ((str "U0222"), (str "Lost Communication With 'Door Window Motor A'"));
  ((str "U0223"), (str "Lost Communication With 'Door Window Motor B'"));
  ((str "U0224"), (str "Lost Communication With 'Door Window Motor C'"));
  ((str "U0225"), (str "Lost Communication With 'Door Window Motor D'"));
  ((str "U0226"), (str "Lost Communication With 'Door Window Motor E'"));
  ((str "U0227"), (str "Lost Communication With 'Door Window Motor F'"));
  ((str "U0228"), (str "Lost Communication With 'Door Window Motor G'"));
  ((str "U0229"), (str "Lost Communication With Heated Steering Wheel Module"));
  ((str "U0230"), (str "Lost Communication With Rear Gate Module"));
  ((str "U0231"), (str "Lost Communication With Rain Sensing Module"));
  ((str "U0232"), (str "Lost Communication With Side Obstacle Detection Control Module Left"));
  ((str "U0233"), (str "Lost Communication With Side Obstacle Detection Control Module Right"));
  ((str "U0234"), (str "Lost Communication With Convenience Recall Module"));
  ((str "U0235"), (str "Lost Communication With Cruise Control Front Distance Range Sensor"));
  ((str "U0300"), (str "Internal Control Module Software Incompatibility"));
  ((str "U0301"), (str "Software Incompatibility with ECM/PCM"));
  ((str "U0302"), (str "Software Incompatibility with Transmission Control Module"));
  ((str "U0303"), (str "Software Incompatibility with Transfer Case Control Module"));
  ((str "U0304"), (str "Software Incompatibility with Gear Shift Control Module"));
  ((str "U0305"), (str "Software Incompatibility with Cruise Control Module"));
  ((str "U0306"), (str "Software Incompatibility with Fuel Injector Control Module"));
  ((str "U0307"), (str "Software Incompatibility with Glow Plug Control Module"));
  ((str "U0308"), (str "Software Incompatibility with Throttle Actuator Control Module"));
  ((str "U0309"), (str "Software Incompatibility with Alternative Fuel Control Module"));
  ((str "U0310"), (str "Software Incompatibility with Fuel Pump Control Module"));
  ((str "U0311"), (str "Software Incompatibility with Drive Motor Control Module"));
  ((str "U0312"), (str "Software Incompatibility with Battery Energy Control Module A"));
  ((str "U0313"), (str "Software Incompatibility with Battery Energy Control Module B"));
  ((str "U0314"), (str "Software Incompatibility with Four-Wheel Drive Clutch Control Module"));
  ((str "U0315"), (str "Software Incompatibility with Anti-Lock Brake System Control Module"));
  ((str "U0316"), (str "Software Incompatibility with Vehicle Dynamics Control Module"));
  ((str "U0317"), (str "Software Incompatibility with Park Brake Control Module"));
  ((str "U0318"), (str "Software Incompatibility with Brake System Control Module"));
  ((str "U0319"), (str "Software Incompatibility with Steering Effort Control Module"));
  ((str "U0320"), (str "Software Incompatibility with Power Steering Control Module"));
  ((str "U0321"), (str "Software Incompatibility with Ride Level Control Module"));
  ((str "U0322"), (str "Software Incompatibility with Body Control Module"));
  ((str "U0323"), (str "Software Incompatibility with Instrument Panel Control Module"));
  ((str "U0324"), (str "Software Incompatibility with HVAC Control Module"));
  ((str "U0325"), (str "Software Incompatibility with Auxiliary Heater Control Module"));
  ((str "U0326"), (str "Software Incompatibility with Vehicle Immobilizer Control Module"));
  ((str "U0327"), (str "Software Incompatibility with Vehicle Security Control Module"));
  ((str "U0328"), (str "Software Incompatibility with Steering Angle Sensor Module"));
  ((str "U0329"), (str "Software Incompatibility with Steering Column Control Module"));
  ((str "U0330"), (str "Software Incompatibility with Tire Pressure Monitor Module"));
  ((str "U0331"), (str "Software Incompatibility with Body Control Module 'A'"));
  ((str "U0400"), (str "Invalid Data Received"));
  ((str "U0401"), (str "Invalid Data Received From ECM/PCM"));
  ((str "U0402"), (str "Invalid Data Received From Transmission Control Module"));
  ((str "U0403"), (str "Invalid Data Received From Transfer Case Control Module"));
  ((str "U0404"), (str "Invalid Data Received From Gear Shift Control Module"));
  ((str "U0405"), (str "Invalid Data Received From Cruise Control Module"));
  ((str "U0406"), (str "Invalid Data Received From Fuel Injector Control Module"));
  ((str "U0407"), (str "Invalid Data Received From Glow Plug Control Module"));
  ((str "U0408"), (str "Invalid Data Received From Throttle Actuator Control Module"));
  ((str "U0409"), (str "Invalid Data Received From Alternative Fuel Control Module"));
  ((str "U0410"), (str "Invalid Data Received From Fuel Pump Control Module"));
  ((str "U0411"), (str "Invalid Data Received From Drive Motor Control Module"));
  ((str "U0412"), (str "Invalid Data Received From Battery Energy Control Module A"));
  ((str "U0413"), (str "Invalid Data Received From Battery Energy Control Module B"));
  ((str "U0414"), (str "Invalid Data Received From Four-Wheel Drive Clutch Control Module"));
  ((str "U0415"), (str "Invalid Data Received From Anti-Lock Brake System Control Module"));
  ((str "U0416"), (str "Invalid Data Received From Vehicle Dynamics Control Module"));
  ((str "U0417"), (str "Invalid Data Received From Park Brake Control Module"));
  ((str "U0418"), (str "Invalid Data Received From Brake System Control Module"));
  ((str "U0419"), (str "Invalid Data Received From Steering Effort Control Module"));
  ((str "U0420"), (str "Invalid Data Received From Power Steering Control Module"));
  ((str "U0421"), (str "Invalid Data Received From Ride Level Control Module"));
  ((str "U0422"), (str "Invalid Data Received From Body Control Module"));
  ((str "U0423"), (str "Invalid Data Received From Instrument Panel Control Module"));
  ((str "U0424"), (str "Invalid Data Received From HVAC Control Module"));
  ((str "U0425"), (str "Invalid Data Received From Auxiliary Heater Control Module"));
  ((str "U0426"), (str "Invalid Data Received From Vehicle Immobilizer Control Module"));
  ((str "U0427"), (str "Invalid Data Received From Vehicle Security Control Module"));
  ((str "U0428"), (str "Invalid Data Received From Steering Angle Sensor Module"));
  ((str "U0429"), (str "Invalid Data Received From Steering Column Control Module"));
  ((str "U0430"), (str "Invalid Data Received From Tire Pressure Monitor Module"));
  ((str "U0431"), (str "Invalid Data Received From Body Control Module 'A'"))
].

(* codes.py:2103-2106 *)
Definition IGNITION_TYPE : list text := [
  (str "spark");
  (str "compression")
].

(* codes.py:2136-2142 *)
Definition FUEL_STATUS : list text := [
  (str "Open loop due to insufficient engine temperature");
  (str "Closed loop, using oxygen sensor feedback to determine fuel mix");
  (str "Open loop due to engine load OR fuel cut due to deceleration");
  (str "Open loop due to system failure");
  (str "Closed loop, using at least one oxygen sensor but there is a fault in the feedback system")
].

(* codes.py:2144-2149 *)
Definition AIR_STATUS : list text := [
  (str "Upstream");
  (str "Downstream of catalytic converter");
  (str "From the outside atmosphere or off");
  (str "Pump commanded on for diagnostics")
].

(* codes.py:2151-2186 *)
Definition OBD_COMPLIANCE : list text := [
  (str "Undefined");
  (str "OBD-II as defined by the CARB");
  (str "OBD as defined by the EPA");
  (str "OBD and OBD-II");
  (str "OBD-I");
  (str "Not OBD compliant");
  (str "EOBD (Europe)");
  (str "EOBD and OBD-II");
  (str "EOBD and OBD");
  (str "EOBD, OBD and OBD II");
  (str "JOBD (Japan)");
  (str "JOBD and OBD II");
  (str "JOBD and EOBD");
  (str "JOBD, EOBD, and OBD II");
  (str "Reserved");
  (str "Reserved");
  (str "Reserved");
  (str "Engine Manufacturer Diagnostics (EMD)");
  (str "Engine Manufacturer Diagnostics Enhanced (EMD+)");
  (str "Heavy Duty On-Board Diagnostics (Child/Partial) (HD OBD-C)");
  (str "Heavy Duty On-Board Diagnostics (HD OBD)");
  (str "World Wide Harmonized OBD (WWH OBD)");
  (str "Reserved");
  (str "Heavy Duty Euro OBD Stage I without NOx control (HD EOBD-I)");
  (str "Heavy Duty Euro OBD Stage I with NOx control (HD EOBD-I N)");
  (str "Heavy Duty Euro OBD Stage II without NOx control (HD EOBD-II)");
  (str "Heavy Duty Euro OBD Stage II with NOx control (HD EOBD-II N)");
  (str "Reserved");
  (str "Brazil OBD Phase 1 (OBDBr-1)");
  (str "Brazil OBD Phase 2 (OBDBr-2)");
  (str "Korean OBD (KOBD)");
  (str "India OBD I (IOBD I)");
  (str "India OBD II (IOBD II)");
  (str "Heavy Duty Euro OBD Stage VI (HD EOBD-IV)")
].

(* codes.py:2188-2213 *)
Definition FUEL_TYPES : list text := [
  (str "Not available");
  (str "Gasoline");
  (str "Methanol");
  (str "Ethanol");
  (str "Diesel");
  (str "LPG");
  (str "CNG");
  (str "Propane");
  (str "Electric");
  (str "Bifuel running Gasoline");
  (str "Bifuel running Methanol");
  (str "Bifuel running Ethanol");
  (str "Bifuel running LPG");
  (str "Bifuel running CNG");
  (str "Bifuel running Propane");
  (str "Bifuel running Electricity");
  (str "Bifuel running electric and combustion engine");
  (str "Hybrid gasoline");
  (str "Hybrid Ethanol");
  (str "Hybrid Diesel");
  (str "Hybrid Electric");
  (str "Hybrid running electric and combustion engine");
  (str "Hybrid Regenerative");
  (str "Bifuel running diesel")
].

(* codes.py:2108-2112; None marks a reserved bit *)
Definition BASE_TESTS : list (option text) := [
  Some (str "MISFIRE_MONITORING");
  Some (str "FUEL_SYSTEM_MONITORING");
  Some (str "COMPONENT_MONITORING")
].

(* codes.py:2114-2123; None marks a reserved bit *)
Definition SPARK_TESTS : list (option text) := [
  Some (str "CATALYST_MONITORING");
  Some (str "HEATED_CATALYST_MONITORING");
  Some (str "EVAPORATIVE_SYSTEM_MONITORING");
  Some (str "SECONDARY_AIR_SYSTEM_MONITORING");
  None;
  Some (str "OXYGEN_SENSOR_MONITORING");
  Some (str "OXYGEN_SENSOR_HEATER_MONITORING");
  Some (str "EGR_VVT_SYSTEM_MONITORING")
].

(* codes.py:2125-2134; None marks a reserved bit *)
Definition COMPRESSION_TESTS : list (option text) := [
  Some (str "NMHC_CATALYST_MONITORING");
  Some (str "NOX_SCR_AFTERTREATMENT_MONITORING");
  None;
  Some (str "BOOST_PRESSURE_MONITORING");
  None;
  Some (str "EXHAUST_GAS_SENSOR_MONITORING");
  Some (str "PM_FILTER_MONITORING");
  Some (str "EGR_VVT_SYSTEM_MONITORING")
].

(* codes.py:2215-2230 *)
Definition TEST_IDS : list (Z * (text * text)) := [
  (1, ((str "RTL_THRESHOLD_VOLTAGE"), (str "Rich to lean sensor threshold voltage")));
  (2, ((str "LTR_THRESHOLD_VOLTAGE"), (str "Lean to rich sensor threshold voltage")));
  (3, ((str "LOW_VOLTAGE_SWITCH_TIME"), (str "Low sensor voltage for switch time calculation")));
  (4, ((str "HIGH_VOLTAGE_SWITCH_TIME"), (str "High sensor voltage for switch time calculation")));
  (5, ((str "RTL_SWITCH_TIME"), (str "Rich to lean sensor switch time")));
  (6, ((str "LTR_SWITCH_TIME"), (str "Lean to rich sensor switch time")));
  (7, ((str "MIN_VOLTAGE"), (str "Minimum sensor voltage for test cycle")));
  (8, ((str "MAX_VOLTAGE"), (str "Maximum sensor voltage for test cycle")));
  (9, ((str "TRANSITION_TIME"), (str "Time between sensor transitions")));
  (10, ((str "SENSOR_PERIOD"), (str "Sensor period")));
  (11, ((str "MISFIRE_AVERAGE"), (str "Average misfire counts for last ten driving cycles")));
  (12, ((str "MISFIRE_COUNT"), (str "Misfire counts for last/current driving cycles")))
].
