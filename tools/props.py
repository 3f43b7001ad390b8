#!/usr/bin/env python3
"""Writes ../properties.jsonl (one property per line). Edit here, run, commit both."""
import json, os
P = []
def p(id, title, statement, quantifier, why, anchors):
    P.append(dict(id=id, title=title, statement=statement, quantifier=quantifier,
                  why_tests_cant=why, anchors=anchors))

PR = "obd/protocols/protocol.py"; LE = "obd/protocols/protocol_legacy.py"; CA = "obd/protocols/protocol_can.py"
UN = "obd/protocols/protocol_unknown.py"
DE = "obd/decoders.py"; UT = "obd/utils.py"; EL = "obd/elm327.py"; OB = "obd/obd.py"; AS = "obd/asynchronous.py"
CM = "obd/OBDCommand.py"; RE = "obd/OBDResponse.py"; UA = "obd/UnitsAndScaling.py"; CO = "obd/commands.py"; CD = "obd/codes.py"

# ------------------------------------------------------------------ protocol layer
p("C01", "CAN multi-frame round trip",
  "For every payload that an ECU segments over ISO 15765-2 (one first frame announcing its length, consecutive frames numbered 1,2,... modulo 16) and that the adapter prints as hex lines in order, calling a CAN protocol object on those lines returns exactly one message, whose data is the payload, whose tx_id is the ECU's, and which keeps every frame (mode-03 DTC payloads are additionally trimmed to the announced DTC count).",
  "every payload of 8..4095 bytes, every ECU id, both header widths, every padding of the last frame, every letter case and spacing of the hex text",
  "A test exercises a few short payloads; the sequence-number unwrapping only matters after 16 frames and has to be right for every length up to 4095 bytes and every byte value.",
  [CA+": CANProtocol.parse_frame, CANProtocol.parse_message", PR+": Protocol.__call__", UT+": contiguous, isHex"])
p("C02", "CAN single-frame round trip",
  "A single CAN frame carrying 1..7 payload bytes is returned as exactly one message with exactly these bytes; anything after the marked length is ignored.",
  "every payload of 1..7 bytes not starting with 0x43, every trailing padding that fits an 8-byte frame, every ECU id, both header widths",
  "Padding bytes, lengths and ids multiply to far more cases than can be listed.",
  [CA+": CANProtocol.parse_frame, CANProtocol.parse_message"])
p("C03", "CAN multi-frame soundness",
  "Whenever a CAN protocol object returns a message built from several frames, these contained exactly one first frame, every consecutive frame was used exactly once, in an order in which the i-th carries sequence nibble i mod 16 starting at 1, and the data is the first frame's bytes followed by theirs, cut to the announced length (and to the DTC count for mode 03). No byte is invented, duplicated or reordered.",
  "every list of lines whatsoever",
  "Adversarial or corrupted inputs are unbounded: duplicated, missing, foreign and reordered frames in any number.",
  [CA+": CANProtocol.parse_message", UT+": contiguous"])
p("C04", "Loss of CAN frames is detected",
  "If an ECU's multi-frame answer arrives with frames missing, no message with wrong data is returned for it: a missing first frame or a missing consecutive frame before the last received one drops the message.",
  "every segmented payload and every non-empty set of lost frames",
  "Loss patterns are exponential in the number of frames; the interesting ones (16 in a row, only the tail) are the ones nobody writes down.",
  [CA+": CANProtocol.parse_message (lines 208-228)", UT+": contiguous"])
p("C05", "Tolerance to reordered CAN frames",
  "Consecutive frames that arrive out of order by at most 7 positions are put back in order and the payload is returned unchanged.",
  "every payload and every permutation of its consecutive frames within the stated window",
  "The number of permutations is factorial; the repository's test shuffles three frames.",
  [CA+": CANProtocol.parse_message (lines 207-222)"])
p("C06", "ECUs do not interfere",
  "The messages returned for one ECU depend only on that ECU's own lines, in their relative order: interleaving the lines of several ECUs in any way changes nothing.",
  "every two line lists that agree on each ECU's subsequence and on the non-hex subsequence",
  "All interleavings of all traffic.",
  [PR+": Protocol.__call__"])
p("C07", "Adapter text is passed through, never parsed",
  "Every line that is not pure hex (after removing spaces) yields exactly one message with empty data, ECU.UNKNOWN and the original text as raw(); these come after the OBD messages in arrival order and do not affect them.",
  "every list of lines, every protocol",
  "Any text can come from an adapter.",
  [PR+": Protocol.__call__", UT+": isHex"])
p("C08", "Malformed hex lines are ignored",
  "A hex line with an odd number of digits (after header padding), with too few or too many bytes, with an unknown PCI type or an announced length of zero changes nothing: the result is the same as without that line.",
  "every list of lines, every position and content of the malformed line",
  "Unbounded inputs.",
  [CA+": CANProtocol.parse_frame", LE+": LegacyProtocol.parse_frame", PR+": Protocol.__call__"])
p("C09", "Parsing never raises",
  "Calling a protocol object on any list of text lines returns a list of messages and never raises an exception.",
  "every list of lines, every protocol",
  "Needs every input; index errors hide in particular combinations of short frames.",
  [PR+": Protocol.__call__", CA+": CANProtocol.parse_message (line 267)", LE+": LegacyProtocol.parse_message (lines 146-149)"])
p("C10", "Legacy multi-frame round trip",
  "A legacy (J1850/9141/14230) answer split over several lines with order bytes 1..n is reassembled into mode, PID and the concatenated data, whatever order the lines arrive in; a gap or a duplicate order byte drops the message.",
  "every list of 2..255 data parts, every permutation of the lines, every header and checksum byte",
  "All permutations and sizes.",
  [LE+": LegacyProtocol.parse_frame, LegacyProtocol.parse_message", UT+": contiguous"])
p("C11", "Legacy trouble-code answers",
  "For mode 03 answers on legacy protocols the message data is 43 00 followed by the data bytes of all lines of that ECU in arrival order.",
  "every number of lines with every content",
  "Unbounded number of lines.",
  [LE+": LegacyProtocol.parse_message (lines 104-118)"])
p("C12", "CAN trouble-code answers are cut to the announced count",
  "For a CAN message starting with 43, the data is cut after 2 + 2*count bytes, count being its second byte; no other message is cut below its announced length.",
  "every message",
  "All counts against all lengths.",
  [CA+": CANProtocol.parse_message (lines 262-268)"])
p("C13", "Which ECU is the engine",
  "Constructing a protocol object from the answer to 0100 marks as ENGINE: the only responder if there is just one; else the responder with the protocol's engine id if present; else the first responder (by ascending id) with the most set bits. Other responders become UNKNOWN (or TRANSMISSION for CAN id 1). Construction always succeeds.",
  "every list of 0100 lines, every protocol",
  "All sets of responders with all bitmaps.",
  [PR+": Protocol.__init__, Protocol.populate_ecu_map"])
p("C14", "Messages come one per ECU in ascending order",
  "The OBD messages returned carry strictly increasing tx ids, one message per ECU, and each is tagged with the ECU constant recorded for this id (UNKNOWN if there is none).",
  "every list of lines, every protocol",
  "All inputs.",
  [PR+": Protocol.__call__"])

# ------------------------------------------------------------------ commands and responses
p("C15", "What a decoder is given",
  "When OBDCommand is called with messages, the decoder runs at most once, and only on a non-empty list: exactly the messages whose ECU bit is in the command's filter, in order, and if the command declares a positive size each has exactly that many bytes (cut on the right or zero-padded on the right, otherwise unchanged).",
  "every command (including custom ones with any decoder) and every message list",
  "Users write their own decoders and index the data without checks: it must hold for every message.",
  [CM+": OBDCommand.__call__, OBDCommand.__constrain_message_data"])
p("C16", "Null responses",
  "A response is null exactly when no message passed the command's ECU filter or the decoder returned None; when no message passes, value is None and the decoder is not run.",
  "every command and message list", "All inputs.",
  [CM+": OBDCommand.__call__", RE+": OBDResponse.is_null"])
p("C17", "Commands are compared by header and request only",
  "Two commands are equal exactly when request bytes and header are equal; equality is an equivalence and equal commands hash equally, so either can be used to look up the other in supported_commands or among the watched commands.",
  "every pair of commands", "All pairs.",
  [CM+": OBDCommand.__eq__, OBDCommand.__hash__"])
p("C18", "mode and pid of a command",
  "mode is the number written by the first two hex digits and pid the number written by the remaining ones, for every all-hex request of sufficient length, and None otherwise.",
  "every request byte string", "All byte strings.",
  [CM+": OBDCommand.mode, OBDCommand.pid"])

# ------------------------------------------------------------------ decoders
p("C19", "Built-in commands decode every answer",
  "Evaluating any command of the built-in tables on any messages the protocol layer can deliver returns a response; no decoder raises.",
  "every built-in command, every list of messages with byte data",
  "300 commands times all byte strings.",
  [DE+": all decoders", CO+": __mode1__ ... __mode9__, __misc__", CM+": OBDCommand.__call__"])
p("C20", "Trouble codes are decoded faithfully",
  "GET_DTC turns the bytes after mode and count, taken over all messages, into one code per byte pair in order, leaving out 00 00 pairs and a trailing odd byte; the code text determines the byte pair (letter from the top two bits, digit from the next two, then three hex digits).",
  "every list of messages; every pair of byte pairs (injectivity)",
  "65536 codes and unbounded lists.",
  [DE+": dtc, parse_dtc", UT+": bytes_to_hex"])
p("C21", "Known trouble codes carry their description",
  "For every code in the description table, decoding the corresponding two bytes returns the code as listed with its description; codes outside the table get an empty description.",
  "every table entry, every byte pair",
  "2067 entries; tests check one.",
  [DE+": parse_dtc", CD+": DTC"])
p("C22", "FREEZE_DTC without a stored code is null",
  "FREEZE_DTC answers carrying 00 00 (no freeze frame) decode to None just as in lists of codes; other pairs decode as in GET_DTC.",
  "every two-byte answer", "All values.",
  [DE+": single_dtc, parse_dtc (line 395)"])
p("C23", "Units-and-scaling decoding is linear",
  "A value decoded through the units-and-scaling table equals raw*scale+offset up to floating-point rounding, raw being the big-endian value of the bytes, taken as two's complement for the signed ids.",
  "every table id and every two-byte value",
  "65536 values times 93 ids, with IEEE rounding.",
  [UA+": UAS.__call__, UAS_IDS", UT+": bytes_to_int, twos_comp"])
p("C24", "Sensor decoders implement the documented formulas",
  "Each scalar decoder (percent, temperature, pressure, voltage, timing, fuel rate ...) returns the documented linear function of its data bytes, up to floating-point rounding, within the documented range.",
  "every data byte (pair)",
  "All byte values with IEEE rounding.",
  [DE+": percent ... fuel_rate, absolute_load"])
p("C25", "Status bits",
  "STATUS reports MIL, DTC count, ignition type and for each monitor its availability and completeness from exactly the bits the standard assigns, using the spark or the compression monitor names according to the ignition bit; monitors of the other ignition type stay null.",
  "every four-byte answer", "2^32 answers.",
  [DE+": status", RE+": Status", CD+": BASE_TESTS, SPARK_TESTS, COMPRESSION_TESTS"])
p("C26", "O2 sensor presence bits",
  "O2_SENSORS and O2_SENSORS_ALT report for bank b, sensor s exactly the corresponding bit, most significant first; AUX_INPUT_STATUS is the top bit.",
  "every data byte", "All values of all bits.",
  [DE+": o2_sensors, o2_sensors_alt, aux_input_status", UT+": BitArray"])
p("C27", "Enumerated decoders are total",
  "Fuel status, secondary air status, OBD compliance and fuel type return the table text for each valid code and None (or an empty string) for every other code, and never raise.",
  "every data byte (pair)", "All codes including reserved ones.",
  [DE+": fuel_status, air_status, obd_compliance, fuel_type", CD+": FUEL_STATUS, AIR_STATUS, OBD_COMPLIANCE, FUEL_TYPES"])
p("C28", "Monitor results",
  "A mode 06 answer is read as consecutive 9-byte blocks (an incomplete rest is ignored); a block with a known units id becomes the result for its test id, the last one wins, and lookup by test id and by standard name agree; blocks with unknown units ids are left out.",
  "every message", "All block sequences.",
  [DE+": monitor, parse_monitor_test", RE+": Monitor, MonitorTest"])
p("C29", "Monitor verdict",
  "MonitorTest.passed is true exactly when the raw value lies between raw minimum and raw maximum (compared as signed numbers for signed units), floating-point scaling notwithstanding.",
  "every units id, every value, minimum and maximum (2^48 triples per id)",
  "Rounding could make two different raw values compare equal.",
  [RE+": MonitorTest.passed", UA+": UAS.__call__", DE+": parse_monitor_test"])
p("C30", "VIN and calibration strings are returned whole",
  "VIN and CALIBRATION_ID return the text sent by the car with only the padding (control bytes 0,1,2 and white space at the ends) removed.",
  "every text", "All strings.",
  [DE+": decode_encoded_string, cvn"])
p("C31", "Adapter error text is not decoded as data",
  "When the adapter answers a command with text only (NO DATA, CAN ERROR, ...), the response is null.",
  "every built-in command except the adapter's own (AT) commands, every text line",
  "All commands times all texts.",
  [CM+": OBDCommand.__call__", PR+": Protocol.__call__", CO+": tables"])
p("C32", "Bit arrays",
  "A supported-PIDs answer is exposed so that element i is bit 7-(i mod 8) of byte i/8, out-of-range indices are False, counts of set and cleared bits add up to the length, and value(a,b) is the big-endian number of this bit range.",
  "every byte string, every index and range", "All byte strings.",
  [UT+": BitArray", DE+": pid"])
p("C33", "Byte helpers",
  "bytes_to_int is the big-endian value, inverse to big-endian encoding; bytes_to_hex writes two lower-case digits per byte; twos_comp maps n-bit values onto -2^(n-1)..2^(n-1)-1 congruent modulo 2^n.",
  "every byte string, every width and value", "Unbounded.",
  [UT+": bytes_to_int, bytes_to_hex, twos_comp"])

# ------------------------------------------------------------------ ELM327
p("C34", "Reading is independent of how the serial data is chopped",
  "The lines obtained from the adapter depend only on the bytes received up to and including the prompt, not on how the operating system splits them into reads.",
  "every byte stream whose only prompt is its last byte, every way of splitting it into non-empty chunks",
  "The split is decided by the scheduler and the driver.",
  [EL+": ELM327.__read"])
p("C35", "Shape of received lines",
  "No line handed to the parser contains a carriage return, line feed or null character, or starts or ends with white space; the trailing prompt is removed.",
  "every byte stream, including invalid UTF-8", "All byte streams.",
  [EL+": ELM327.__read"])
p("C36", "I/O errors disconnect and never escape a query",
  "If writing to or reading from the port fails at any point of a query, no exception is raised, status() becomes Not Connected, the port is closed, and from then on queries return null responses without touching the port.",
  "every history of calls and every failure point",
  "Failure can strike at any byte of any exchange.",
  [EL+": ELM327.__write, ELM327.__read, ELM327.send_and_parse", OB+": OBD.query"])
p("C37", "Connection set-up and status",
  "After construction the status is Car Connected only if the adapter acknowledged ATE0, ATH1 and ATL0 (and reported at least 6 volts if checked) and a protocol was selected; it is Not Connected, with the port closed, if opening the port, baud detection or one of these acknowledgements failed; OBD Connected is only possible with the voltage check.",
  "every adapter behaviour (any bytes, silences and errors)",
  "The adapter's behaviour is unbounded.",
  [EL+": ELM327.__init__, set_protocol, __isok, __error, close"])
p("C38", "Protocol selection",
  "With no protocol given, the one the adapter reports (with or without the automatic mark A) is used if known; otherwise each protocol is tried in the fixed order and the first for which 0100 is not answered UNABLE TO CONNECT is used; protocol_id() reports it. An explicit protocol outside 1..A is refused without I/O.",
  "every adapter behaviour", "All answers at every step.",
  [EL+": ELM327.auto_protocol, manual_protocol, set_protocol"])
p("C39", "Car Connected means the car answered",
  "If status() is Car Connected after construction, the car (not just the adapter) answered the 0100 request.",
  "every adapter behaviour", "All answers.",
  [EL+": ELM327.manual_protocol (lines 224-233), auto_protocol (lines 275-281)"])
p("C40", "Baud detection",
  "With no baud rate given, the first rate of the fixed list at which the reply ends with the prompt is chosen, no further rate is tried, and the port's original timeout is back in force afterwards; if none answers, the connection is closed.",
  "every adapter behaviour", "All replies at each rate.",
  [EL+": ELM327.auto_baudrate, set_baudrate"])
p("C41", "Low power",
  "After low_power() was acknowledged, the next query is preceded by exactly one wake-up write, after which none is sent until low_power() is acknowledged again; low_power and normal_power do no I/O when unconnected, and low_power() writes exactly one line.",
  "every history of calls", "All histories.",
  [EL+": ELM327.low_power, normal_power, send_and_parse"])
p("C42", "Bounded waiting",
  "One command makes at most 12 attempts to read an answer, and each ends at the prompt, at a timeout or at an error.",
  "every adapter behaviour", "Termination for every behaviour; the bound depends on accumulated floating-point rounding.",
  [EL+": ELM327.__send (lines 482-495)"])

# ------------------------------------------------------------------ OBD
p("C43", "Unconnected queries are silent",
  "query() on an unconnected object returns a null response without raising and without any port activity.",
  "every history after which the object is unconnected, every command, with and without force",
  "All histories.", [OB+": OBD.query, OBD.status"])
p("C44", "Unsupported commands are not sent",
  "query(cmd) without force writes nothing to the port and returns a null response unless cmd is in supported_commands, and for mode 06 also unless the protocol is one of 6-9.",
  "every state and command", "All states.",
  [OB+": OBD.query, OBD.test_cmd, OBD.supports"])
p("C45", "With fast=False the request is sent unaltered",
  "On a connection with fast disabled every transmitted query writes exactly the command's own bytes and a carriage return (after at most one header change), whatever was sent before.",
  "every history of queries", "All histories.",
  [OB+": OBD.__build_command_string, OBD.query"])
p("C46", "What fast mode may send",
  "On a fast connection a query writes the command's bytes, or these followed by the decimal number of frames seen at the first answer (only if the command allows it), or an empty line standing for one of these two; the frame count of a command never changes once recorded.",
  "every history of queries", "All histories.",
  [OB+": OBD.__build_command_string, OBD.query"])
p("C47", "An empty line always repeats the right command",
  "Whenever a fast query writes an empty line (which makes the adapter repeat its last command), the last non-empty line written to the port is the string this query stands for.",
  "every history of API calls", "All histories, including failed queries, header switches and power commands.",
  [OB+": OBD.__build_command_string, OBD.__set_header, OBD.query", EL+": low_power, normal_power"])
p("C48", "Header switching",
  "A command is transmitted only while the adapter's header, as last acknowledged, is the command's header; the header is changed only when needed.",
  "every history of queries and adapter behaviours", "All histories.",
  [OB+": OBD.__set_header, OBD.query"])
p("C49", "Supported commands are learned from the car",
  "After connecting, supported_commands consists of the base commands and exactly those table commands whose bit is set in a supported-PIDs answer that was actually requested, mode 1 bits also enabling the mode 2 twin; a listing command is only requested if it is itself supported.",
  "every set of answers by the car", "All bitmaps and failures.",
  [OB+": OBD.__load_commands", CO+": Commands.pid_getters, base_commands, has_pid"])
p("C50", "Automatic port choice",
  "With no port given, ports are tried in order and the first with a working adapter is used.",
  "every list of ports and behaviours", "All combinations.",
  [OB+": OBD.__connect (line 89)", UT+": OBDStatus, scan_serial"])
p("C51", "close()",
  "After close() status is Not Connected, supported_commands is empty, port_name and protocol names are empty, the port was sent ATZ and closed, and repeating close() does nothing.",
  "every state", "All states.", [OB+": OBD.close", EL+": ELM327.close"])
p("C52", "A query never raises on a built-in command",
  "For every built-in command and every adapter behaviour query() returns a response instead of raising.",
  "every state and behaviour", "All behaviours.",
  [OB+": OBD.query (line 292)", PR+": Protocol.__call__", DE+": air_status"])

# ------------------------------------------------------------------ Async
p("C53", "Watching is a subscription table",
  "watch, unwatch and unwatch_all behave like operations on a map from commands to callback lists: watch adds (once), unwatch(cmd, callback) removes only this callback, unwatch(cmd) removes the command, others are untouched.",
  "every sequence of calls while stopped", "All sequences.",
  [AS+": Async.watch, unwatch, unwatch_all"])
p("C54", "No change of subscriptions while running",
  "While the update loop is running, watch, unwatch and unwatch_all change nothing.",
  "every state and call", "All states.", [AS+": Async.watch, unwatch, unwatch_all"])
p("C55", "One pass of the update loop",
  "A pass queries every watched command exactly once in subscription order, stores each answer and then calls the command's callbacks in registration order with that same answer.",
  "every subscription table and every sequence of answers", "All tables and answers.",
  [AS+": Async.run"])
p("C56", "After stop() nothing runs",
  "When stop() has returned normally no update thread is alive and no callback is called until start() is called again; at no time are two update threads alive.",
  "every interleaving of the user thread with the update threads",
  "All schedules.", [AS+": Async.start, stop, run"])
p("C57", "The update thread is never disturbed by subscription changes",
  "In no interleaving does the update thread hit a missing callback list or a subscription table changed during iteration, as long as callbacks themselves do not call the API.",
  "every interleaving and history", "All schedules.", [AS+": Async.run, watch, unwatch"])
p("C58", "paused() restores the loop",
  "Leaving a with-paused() block restarts the loop exactly if it was running on entry, also when such blocks are nested.",
  "every history", "All nestings.", [AS+": Async.__enter__, __exit__"])
p("C59", "Non-blocking query returns the latest answer",
  "Async.query returns the last answer stored by the loop for a watched command, an empty response before the first one or if the command is not watched, without port activity.",
  "every interleaving", "All schedules.", [AS+": Async.query, run"])
p("C60", "stop() never fails",
  "stop() returns normally in every interleaving, also when the device disconnects at the same moment.",
  "every interleaving", "Race between two threads.", [AS+": Async.stop, run (lines 208-212)"])
p("C61", "Disconnection ends the loop",
  "After the device disconnects the update thread ends at its next step to a command without querying it, and running becomes false.",
  "every interleaving", "All schedules.", [AS+": Async.run"])
p("C62", "running tells the truth",
  "If running is true, an update thread is alive.",
  "every interleaving, including callbacks or decoders that raise", "All schedules.", [AS+": Async.run, Async.running"])

# ------------------------------------------------------------------ tables
p("C63", "Command tables",
  "Every entry of the mode tables sits at the index of its PID in the list of its mode, names and (header, request) pairs are unique, lookup by name, by mode and PID and has_pid/has_name/has_command agree.",
  "every entry, every mode and pid number", "has_pid ranges over all integers.",
  [CO+": Commands"])
p("C64", "Mode 2 mirrors mode 1",
  "For every mode 1 command there is the mode 2 command with the same PID, size, ECU filter and decoder (dropped for PID listings).",
  "every entry", "Table-wide relation.", [CO+": __mode2__"])
p("C65", "Legacy pending trouble codes",
  "GET_CURRENT_DTC on a legacy protocol reports the codes in the answer, as GET_DTC does.",
  "every answer", "All answers.", [LE+": LegacyProtocol.parse_message (line 104)", DE+": dtc", CO+": GET_CURRENT_DTC"])

p("C66", "Printed voltages are read correctly",
  "ELM_VOLTAGE returns the double nearest to the decimal number the adapter printed (with or without a sign, a point and a V); with the voltage check on, no car is asked on a printed voltage below 6 V and exactly those count as too low; text that is no number gives a null response.",
  "every printed decimal, every adapter behaviour at connection", "Infinitely many numerals; correct rounding and the threshold are for all of them.",
  [DE+": elm_voltage", EL+": ELM327.__init__ (lines 178-197)"])

p("C67", "From the wire to the value",
  "Whatever the history of the connection, the payload a query decodes is what the first ECU heeded by the command (by id) put on the wire, through any framing, padding, order of other ECUs and text lines; a scalar sensor's value is then the documented formula of those bytes; commands for the engine heed the ECU taken for the engine and no other.",
  "every session, command, protocol object, answer, framing, interleaving with other ECUs and texts", "Composition of all layers over all inputs.",
  [OB+": OBD.query", EL+": ELM327.send_and_parse", PR+": Protocol.__call__", CM+": OBDCommand.__call__", DE])
p("C68", "Trouble codes end to end",
  "GET_DTC (and GET_CURRENT_DTC on CAN) returns the codes reported by all ECUs, in ascending order of their ids, each with its SAE name and description, without padding, and nothing else.",
  "every session, any set of reporting ECUs, any framing and interleaving", "All answers of all sets of ECUs.",
  [OB+": OBD.query", CA+": CANProtocol.parse_message", LE+": LegacyProtocol.parse_message", DE+": dtc"])
p("C69", "Fresh answers",
  "A response is determined by the command, the protocol found at connection and the lines received after the last line was written; for all commands but the trouble code and adapter ones the value depends on nothing but what the first ECU heeded said.",
  "every two sessions and histories", "Absence of influence of all earlier history.",
  [OB+": OBD.query", EL+": ELM327.__send, __read"])
p("C70", "Only the answer to the request is decoded",
  "A value is only returned for an answer to the very request that was sent (its mode and PID); without an answer from an ECU the command heeds, the response is null.",
  "every answer", "All answers.", [CM+": OBDCommand.__call__", DE])
p("C71", "Freeze frame values",
  "A freeze frame query (mode 02) returns the value of the data bytes in the answer (mode, PID, frame number, data).",
  "every scalar sensor, every answer", "All answers.", [CO+": __mode2__", DE])
p("C72", "Connection attributes",
  "While a connection lasts, status(), is_connected(), port_name(), protocol_id() and protocol_name() say what they said before, whatever is done with it, and the same ECU map is used; the id and name are one of the documented pairs or empty; without a connection the port name is empty; the accessors never raise.",
  "every history of calls, every port behaviour", "All histories.", [OB+": status, protocol_id, protocol_name, port_name, is_connected"])

p("C73", "Callbacks may query, start and re-watch",
  "Callbacks that call only query(), start() and, while running is true, watch/unwatch/unwatch_all, change nothing about the program: every state it reaches is one it could reach if the callbacks made no calls and took no time; these calls never raise; query() in a callback returns the latest answer, for the callback's own command the very answer it was called with.",
  "every program, every behaviour of the callbacks within these calls, every interleaving", "All callbacks and schedules.",
  [AS+": Async.run (lines 219-222), query, start, watch, unwatch"])
p("C74", "Subscription changes made in a callback are ignored",
  "watch, unwatch and unwatch_all called in a callback return at once and change nothing, since the loop is running.",
  "every program and interleaving", "A race with the user's stop().",
  [AS+": Async.watch, unwatch, unwatch_all, stop, run"])
p("C75", "stop(), close() and paused() in a callback",
  "Called in a callback, whatever callbacks do, they never deadlock or return: they raise RuntimeError within a bounded number of steps; running is then False and stays so while this loop lasts, which asks only a bounded number of further commands; connection and port are as before; start() can then start the loop again.",
  "every program, every behaviour of callbacks, every interleaving", "All callbacks and schedules; absence of deadlock.",
  [AS+": Async.stop, close, __enter__, start, run"])

p("C76", "Port scan",
  "scan_serial() tries the documented candidates of the platform once each and in order (Linux: rfcomm then ttyUSB; BSD; macOS; Windows/Cygwin COM numbers), returns exactly those that open, leaves every port it opened closed, passes over ports that fail softly, and lets any other error out; OBD() without a port opens only ports the scan returned, in that order, each at most once.",
  "every platform string, every set of existing device names, every behaviour of each port when opened", "All machines.",
  [UT+": try_port, scan_serial", OB+": OBD.__connect"])
p("C77", "A willing adapter and car connect",
  "If the port opens and never fails, says its prompt at one of the tried baud rates, the adapter accepts the set-up, the voltage is sufficient, and the car answers 0100 and the listings it is asked for, then OBD() returns an object that is CAR_CONNECTED to this port at this baud rate in this protocol, supports exactly the base commands and what the car listed, has read exactly those answers and no byte more, and answers the next supported query with the decoded reply.",
  "every configuration, every chunking of the answers, every protocol, every set of listed commands", "Liveness over all adapters and cars.",
  [OB+": OBD.__init__, __connect, __load_commands, query", EL+": ELM327.__init__, auto_baudrate, set_protocol, send_and_parse"])

p("C78", "Every open port is accounted for",
  "At any moment of any session the library holds exactly one open port while status() is not 'Not Connected', and none otherwise; it never uses a port while none is open; close() leaves none open.",
  "every configuration, every world, every history of calls, every interleaving of update thread and callbacks", "Resource accounting over all histories and failures.",
  [OB+": OBD.__init__, __connect, close", EL+": ELM327.__init__, close, __write, __read"])
p("C79", "One thread at a time uses the connection",
  "At most one thread is inside query() or close() of the connection: two update threads never ask at the same time, the user's close() never runs while one asks, and close() in a callback never gets there; from the moment one is about to ask until it has, nobody else touches the connection.",
  "every program, callback behaviour and interleaving", "Mutual exclusion over all schedules.",
  [AS+": Async.start, stop, close, run"])

p("C80", "A running update loop keeps asking",
  "After start(), as long as its thread gets time and has not ended, the loop makes progress: some number of its steps suffices for every watched command to be asked again and every callback to be called with a new answer, whatever the other threads do in between; and it ends only because stop() (also inside close() or paused()) is waiting for it, the connection is gone, or a query or a callback raised.",
  "every program, interleaving and number of rounds", "Liveness under every fair schedule; a test can wait for one round.",
  [AS+": Async.run, start, stop"])

p("C81", "Structured readings, from the wire to the value",
  "When the first heeded ECU answers a query for the status, the oxygen sensors present, the auxiliary input, fuel status, fuel type, OBD compliance, the freeze-frame code or a mode 06 monitor, the response carries exactly what its bytes say (bit for bit, test for test), whatever else is on the wire and however the protocol cut the answer into lines.",
  "every session, protocol, line order, other ECUs' traffic and payload", "All payloads and all wire schedules; a decoder test starts from a ready message.",
  [OB+": OBD.query", CM+": OBDCommand.__call__", DE+": status, o2_sensors, fuel_status, obd_compliance, fuel_type, single_dtc, monitor", PR+": Protocol.__call__"])
p("C82", "Marking a command as supported",
  "After supported_commands.add(c) a query of c (or of any command with the same request and header) without force behaves exactly like a forced one - same lines, same result, same state - until close(); a mode 06 command still needs a CAN protocol. Adding does nothing at the port and changes nothing else; a command neither found on connecting nor added is never sent; the set never holds the same command twice.",
  "every session, every history of calls, every custom command", "It ranges over all histories of add, query, power and close calls and over all commands a user can build.",
  [OB+": OBD.supported_commands, supports, test_cmd, query, close", CM+": OBDCommand.__eq__, __hash__", "docs/Connections.md", "docs/Custom Commands.md"])

p("C83", "Using the connection of an Async object is indivisible",
  "Although a query of the update loop (and close()) is many separate accesses to the port and to the connection's attributes, and other threads may run between any two of them, the outcome is always one that could arise if each were a single step: a query reports and leaves behind exactly what it would alone, no matter what the user calls meanwhile (start, stop, close, watch, unwatch, query, paused()), no two threads are ever in the middle of using the connection, and each query and close() comes to its end.",
  "every program without power calls and every interleaving of the single port and attribute accesses", "Every point between two accesses of every call is a place where another thread may run.",
  [AS+": Async.run, close, start, stop", OB+": OBD.query, close, __set_header", EL+": ELM327.send_and_parse, __send, __write, __read, close"])
p("C84", "Power calls on an Async connection",
  "low_power() and normal_power() on an Async connection take effect as on a connection without threads: the call and the loop's queries each get the adapter's answers that belong to them.",
  "every program and every interleaving of the single port and attribute accesses", "Every point between two accesses of every call is a place where another thread may run.",
  [OB+": OBD.low_power, normal_power", AS+": Async.run", EL+": ELM327.low_power, normal_power, send_and_parse, __send"])

p("C85", "Looking at a connection in use",
  "status(), is_connected(), port_name(), protocol_id(), protocol_name() and supports(), called on an Async connection between other calls while the update loop is in the middle of a query, return what was true at some moment of the call - the value before that query or the value after it, never something else - without raising, without waiting for the query, and without changing anything.",
  "every program, every interleaving of the single accesses of the looks and of the loop's queries", "Every point between two accesses of every call is a place where another thread may run.",
  [OB+": OBD.status, is_connected, port_name, protocol_id, protocol_name, supports", EL+": ELM327.port_name, status, protocol_id, protocol_name, close", AS+": Async.run"])

p("C86", "The response is what the command tables of the documentation say",
  "Every command in the documented command tables exists under its documented name, mode, PID and description, and there are no undocumented ones. Whatever is on the wire, a query for a documented command returns no value or a value of the documented response type: a number with the documented unit, one of the documented status strings, a tuple of the documented shape, a monitor with the documented tests, and so on; the freeze-frame commands DTC_... of mode 02 return what the mode 01 command of that name returns.",
  "every row of the documented tables, every session, every adapter reply, every query", "It ranges over all rows of the documentation and everything a car or adapter may print.",
  ["docs/Command Tables.md", "docs/Responses.md", CO+": __mode1__, __mode2__, __mode6__, __mode9__, __misc__", DE+": all decoders", OB+": OBD.query"])

p("C87", "With a well-behaved adapter, one query is one request to the car, and the response is the car's answer to it",
  "With an adapter that works as its data sheet says and any car: after OBD(portname, fast=False), whatever was queried before, a query that may be sent puts exactly one request to the car, the command's own; the response is made of exactly the lines the car answers to it, in full; questions to the adapter and queries that are not sent leave the car alone; the adapter stays set up (no echo, headers printed) and the connection is never lost.",
  "every car (any nondeterministic, stateful behaviour), every state the adapter was in before, every way its output is cut into reads, every history of queries", "It ranges over all cars, all timings of the serial port and all histories.",
  [EL+": ELM327.__init__, send_and_parse, set_header", OB+": OBD.query, __build_command_string"])
p("C88", "Which ECUs a command is sent to does not depend on earlier queries",
  "With an adapter that works as its data sheet says: the request for a command reaches the same ECUs (is sent with the same header) whatever was queried before, so that in the same state of the car the response is the same.",
  "every car, every two histories of queries", "It compares all pairs of histories.",
  [EL+": set_header, ELM327.__init__", OB+": OBD.query", "obd/protocols/protocol.py: ECU_HEADER"])
p("C89", "fast=True only saves time",
  "With an adapter that works as its data sheet says: with fast=True (the default) a query puts the same request to the car as with fast=False, and in the same state of the car it gives the same response.",
  "every car, every history of queries", "It compares sessions with every car, including cars whose answers vary in time.",
  [OB+": OBD.query, __build_command_string, __frame_counts, __last_command", "docs/Connections.md: fast"])

p("C90", "With a well-behaved adapter, the update loop's requests and what the user gets of them",
  "With an adapter that works as its data sheet says and any car: whatever an Async object (made by Async(portname, fast=False)) is told to do by start, stop, watch, unwatch, query, paused blocks and close, and however its threads are scheduled, the car is asked exactly what the update loop queries, one request per query and in that order, and each response is made of the car's answer to its request; callbacks and query() give out only such responses (or empty ones); the connection is never lost before close(), so the loop ends only because it is being stopped or because a query or a callback raised.",
  "every car (any nondeterministic, stateful behaviour), every adapter state before, every program of API calls, every interleaving of the threads", "It ranges over all cars, programs and schedules.",
  [AS+": Async.run, start, stop, watch, unwatch, query, close", OB+": OBD.query, close", EL+": ELM327.__init__, send_and_parse, close"])

p("C91", "Power modes do not change what queries do",
  "With an adapter that goes to sleep on ATLP and is woken by anything that is written to it: whatever low_power() and normal_power() calls are made between the queries, a query that is sent is exactly one request to the car, the command's own, and its response is made of the car's answer; low_power() and normal_power() themselves send nothing to the car; and after low_power() the adapter is asleep until the next query that is sent or the next normal_power().",
  "every car, every adapter state before, every way of waking up, every history of calls", "It ranges over all cars, adapters and histories.",
  [OB+": OBD.low_power, normal_power, query", EL+": ELM327.low_power, normal_power, send_and_parse"])
p("C92", "start_low_power=True connects to a sleeping adapter, and does no harm to one that is awake",
  "With start_low_power=True, a connection to an adapter that is asleep ends, if it is made, with the adapter awake, echo off, headers on and the header it starts with, whatever it forgot in its sleep; and with an adapter that is awake, the car gets the same requests as without start_low_power.",
  "every car, every adapter state before (awake or asleep), every way of waking up", "It ranges over all cars, adapters and environments.",
  [OB+": OBD.__init__", EL+": ELM327.__init__"])

p("C93", "repr(command) is an expression that makes the command again",
  "Evaluating repr(c) gives a command with the same name, description, request, length, ECU filter, fast flag and header as c (its decoder is raw_string); so the two are equal, and commands that differ in one of these are printed differently.",
  "every command: any name, description, request and header (quotes, backslashes, line breaks, any Unicode, any bytes), every notion of which characters are printable", "The strings are unbounded and the escapes interact.",
  [CM+": OBDCommand.__repr__", "obd/protocols/protocol.py: ECU, ECU_HEADER"])
p("C94", "What str(command) and print_commands() show",
  "str(c) shows the request (after the header, if it is not the default) and the description, so that commands shown alike are equal; print_commands() prints one line per supported command.",
  "every command, every set of supported commands, every order of the set", "The strings and sets are unbounded.",
  [CM+": OBDCommand.__str__", OB+": OBD.print_commands"])
p("C95", "Messages show the adapter's own lines",
  "raw() of a message shows, in the order they arrived and one below the other, lines the adapter sent after the last line written (hex lines without their spaces); no line is shown twice or by two messages; text that is not hex gives a message of its own; hex() shows the message's data; a command decoded with raw_string has the text of its messages as value.",
  "every protocol, every list of lines, every command and session", "It ranges over all answers, including interleaved, damaged and reordered ones.",
  [PR+": Protocol.__call__, Message.raw, Message.hex", DE+": raw_string", CM+": OBDCommand.__call__", "docs/Custom Commands.md"])

p("C96", "An answer that comes late is not taken for the answer to a later query",
  "With an adapter whose output may take any time to arrive (reads time out while there is more to come), a query that is sent is one request to the car, and its response is made only of what the car answers to that very request; the connection is kept.",
  "every car, every delay of every byte, every way of cutting the output into reads, every history of queries", "It ranges over all timings, cars and histories.",
  [EL+": ELM327.__read, __send, __write, send_and_parse", OB+": OBD.query"])
p("C97", "A query that times out gives no wrong value",
  "If a time-out cuts the answer to a query short, the value is that of the complete answer, or there is none (the response is null).",
  "every answer, every place at which it is cut, every command, protocol and session", "It ranges over all answers and all timings.",
  [EL+": ELM327.__read, __send", "obd/protocols/protocol_can.py: CANProtocol.parse_frame, parse_message", CM+": OBDCommand.__call__, __constrain_message_data"])
p("C98", "A time-out never makes a later request go to another ECU",
  "Whatever output of the adapter comes late, every request goes to the header of its command (or to all ECUs as long as no command with another header than the engine's was sent).",
  "every car, every delay of every byte, every history of queries of commands with any headers", "It ranges over all timings and histories.",
  [OB+": OBD.query, __set_header", EL+": ELM327.send_and_parse, __read"])

p("C99", "A printed report says what was found",
  "str() of a mode 06 response has one line for each test with a result, saying which test it is, its value and whether it passed (in the order of the standard's test ids, then the manufacturer's tests as they occur), or says that there is none; len() is the number of these tests; a status test is printed with its name and the two bits of the answer; unit is None exactly if there is no value.",
  "every message, every division into blocks, every rendering of quantities without line breaks", "All block sequences, with repeated, unknown and manufacturer-specific tests in any order.",
  [RE+": OBDResponse.unit, StatusTest.__str__, Monitor.__str__, Monitor.__len__, MonitorTest.__str__", DE+": monitor, status"])

p("C100", "The update loop with fast=True",
  "With an adapter that works as its data sheet says and any car: an Async object made with fast=True (the default) that watches commands with the engine's header puts to the car, in the order of the update loop's queries and under every schedule, one request per query and nothing else, as long as no query raised: the command's own, with the number of frames of the first answer to that command in decimal behind it from the second query on, which the adapter takes as a limit if it has one digit; each response is made of the lines it then gives; callbacks and query() give out only such responses (or empty ones), the connection is kept until close(), and the loop ends only because it is being stopped or because a query or a callback raised.",
  "every car (any nondeterministic, stateful behaviour), every adapter state before, every program of API calls, every interleaving of the threads", "It ranges over all cars, programs and schedules.",
  ["obd/asynchronous.py: Async.run, start, stop, watch, unwatch, query, close", OB+": OBD.query, __build_command_string, __frame_counts, __last_command, close"])

p("C101", "What an Async user is shown is what the car measured",
  "With an adapter that works as its data sheet says and any car, under every schedule: every response a callback is called with, and every non-empty response query() returns, is the reading of an answer the car gave to that very command, in a state it was in after it had answered the update loop's queries before. So if the car, whenever asked, truthfully answers with what a sensor measures, the value shown is what the sensor measured in such a state, in the documented unit and up to rounding; and for GET_DTC it is the list of the codes of all reporting ECUs. With fast=True this holds for commands of which every answer of the car has the same number of lines, from 1 to 9.",
  "every car, every adapter state before, every program of API calls, every interleaving of the threads, every sensor and every measured value", "It ranges over all cars, measured values, programs and schedules.",
  ["obd/asynchronous.py: Async.run, watch, unwatch, query", OB+": OBD.query", CM+": OBDCommand.__call__", DE+": percent, temp, speed, uas, dtc"])

p("C102", "query() returns what the car measures at the time of the call",
  "With an adapter that works as its data sheet says and any car, after any history of queries: if the car, whenever asked, truthfully answers with what a sensor measures, then a query() of the sensor's command that is sent and returns has as value what the sensor measures in the state the car is in at that call (never an older measurement), in the documented unit and up to rounding; and for GET_DTC the list of the codes of all ECUs that are asked. With fast=True this holds for commands of which every answer of the car has the same number of lines, from 1 to 9.",
  "every car, every adapter state before, every history of queries, every sensor and every measured value", "It ranges over all cars, measured values and histories.",
  [OB+": OBD.query, __build_command_string", EL+": ELM327.send_and_parse", CM+": OBDCommand.__call__", DE+": percent, temp, speed, uas, dtc"])

p("C103", "An Async object with a slow adapter asks the car once per query, and shows only answers to its own requests",
  "However slow the adapter is (its output may take any time, reads time out), under every schedule of the user's thread and the update threads, an Async object made with fast=False whose watched commands have the engine's header puts to the car exactly one request per query of the update loop, the command's own, and nothing else; query() and the callbacks give only responses to these; timeouts never end the connection or the loop: the loop ends only if it is stopped or something raised. And as long as output that comes too late is thrown away before the next line is written, each response is made only of a part of the car's own answer to that very request (its first lines and perhaps a part of the next one, if what is read is plain ASCII).",
  "every car, every delay of the adapter's output, every program of calls and every schedule", "It ranges over all delays, schedules and cars.",
  ["obd/asynchronous.py: Async.run, watch, unwatch, query, stop, close", OB+": OBD.query", EL+": ELM327.__send, __read, __write"])

p("C104", "delay_cmds is the pace of the update loop",
  "Between two queries of the same command on the connection of an Async object at least delay_cmds seconds pass, whichever update threads make them, whatever is stopped, watched and started in between and however long queries, callbacks and scheduling take, unless an exception ended the thread that made the first; so a command asked n+1 times was asked over at least n times delay_cmds. An update thread sleeps only between rounds, with every watched command asked equally often and its callbacks called, and for delay_cmds; with delay_cmds=0 it never sleeps. Sleeping does not rule out any order of steps.",
  "every delay, every timing and schedule of the threads, every program of calls", "It ranges over all timings and interleavings.",
  ["obd/asynchronous.py: Async.__init__, run, start, stop"])

p("C105", "OBD() and Async() give every argument the documented meaning",
  "OBD() gives every parameter the value that the documented signature gives it for the positional and keyword arguments of the call, in any mix of the two, with the documented defaults; passes each on to where it belongs (port, baud rate, protocol, fast mode, timeout, voltage check, low-power start); and raises TypeError for a call the signature does not allow. Every call of OBD() has the same meaning for Async(), with a delay_cmds of 0.25 s.",
  "every list of positional arguments and every set of keyword arguments", "It ranges over all mixes of positional and keyword arguments with all values.",
  ["obd/obd.py: OBD.__init__, __connect", "obd/asynchronous.py: Async.__init__", "obd/elm327.py: ELM327.__init__", "docs/Connections.md"])
p("C106", "Async(), query(), watch(), unwatch() and OBDCommand() take the arguments that are documented",
  "Every call the documented signature of Async(), query(), watch(), unwatch() or OBDCommand() allows, with any mix of positional and keyword arguments, gives every parameter the value the signature says, and every other call raises TypeError; each argument of OBDCommand() becomes the property of that name.",
  "every list of positional arguments and every set of keyword arguments", "It ranges over all mixes of positional and keyword arguments with all values.",
  ["obd/obd.py: query", "obd/asynchronous.py: Async.__init__, query, watch, unwatch", "obd/OBDCommand.py: OBDCommand.__init__", "docs/Connections.md", "docs/Async Connections.md", "docs/Custom Commands.md"])

p("C107", "Async.query() may be called from any thread",
  "Any number of threads may call query() of an Async object while the user's thread starts, stops, watches and unwatches and the update loop runs: a call never waits, never raises, changes nothing, and returns the latest response at some moment of the call (the empty one if the command was not watched then).",
  "every number of reader threads, every program of calls, every interleaving", "It ranges over all interleavings of any number of threads.",
  ["obd/asynchronous.py: query, watch, unwatch, unwatch_all, run"])

p("C108", "Answers are read in the format of the protocol the connection shows",
  "While connected, protocol_id() is one of the documented ids or empty. With 1-5 the answers are read as lines of three header bytes, data and checksum; with 6 and 8 as CAN frames with 11-bit ids, with 7, 9 and A with 29-bit ids, and the data and sender of every message are those on the wire; with no protocol no line is taken for data.",
  "every session with every adapter and car, every answer", "It ranges over all sessions, protocols and answers.",
  ["obd/elm327.py: _SUPPORTED_PROTOCOLS, set_protocol", "obd/protocols/protocol_can.py", "obd/protocols/protocol_legacy.py", "obd/protocols/protocol_unknown.py"])

p("C109", "With fast=True, an answer that once came too late does not matter later",
  "On a fast connection to an adapter whose output may take any time to arrive, a query is one request to the car, the command's own, and its response is made of nothing but what the car answers to this request; a query that was cut off by a time-out has no influence on what later queries of the same command return, if their answers come in time.",
  "every car, every session with fast=True and every timing of the adapter's output", "It ranges over all histories, cars and timings.",
  ["obd/obd.py: OBD.query, OBD.__build_command_string, __frame_counts", "obd/elm327.py: ELM327.__read, ELM327.__send"])

p("C110", "The car's list of mode 09 commands is heeded",
  "With a willing adapter and car (as in C77), after connecting a mode 09 command (VIN, calibration id, verification numbers and their message counts) is in supported_commands exactly if the car's answer to 0900 has its bit set; bit n of the four bytes stands for command n.",
  "every adapter in good order, every car, every protocol, every answer to 0900 (any framing, any other lines), any answers to the other listings",
  "tests connect to one or two fixed transcripts; this ranges over all answers and protocols, and over everything that is asked before",
  ["obd/commands.py: __mode9__, Commands.pid_getters", "obd/obd.py: OBD.__load_commands", "obd/decoders.py: pid"])

p("C111", "The calibration verification numbers are returned whole",
  "CVN returns the verification number(s) the car sends after 4906, every byte of it in hexadecimal, without the count of numbers in front and the filling bytes behind.",
  "every answer of the car, every protocol and framing", "tests decode a fixed answer; the number is arbitrary binary data, so any byte can stand at its ends",
  [DE+": cvn, decode_encoded_string", CM+": __mode9__ (CVN)"])

p("C112", "The car's list of its on-board monitors is heeded",
  "With a willing adapter and car (as in C77) on one of the CAN protocols 6-9, after connecting a monitor command of mode 06 is in supported_commands exactly if the car's answer to the listing for it (0600, 0620, ...) has its bit set (0600: that alone; the later listings: if asked for, and an earlier one did not announce it already). On every other protocol the listings are not asked for and no monitor is supported.",
  "every adapter in good order, every car, every protocol, every answer to the listing (any length and framing), any answers to the other listings",
  "tests connect to one or two fixed transcripts; this ranges over all answers and protocols, and over everything asked before and after",
  [OB+": __load_commands, test_cmd", CO+": __mode6__, pid_getters", DE+": pid"])

p("C113", "The car's lists of live data are heeded",
  "With a willing adapter and car (as in C77), on any protocol, after connecting a mode 01 command, and the command of mode 02 for the same data in the freeze frame, is in supported_commands exactly if the engine's answer to the listing for it (0100, 0120, 0140) has its bit set; if the listing is not asked for or answered NO DATA, none of its commands is.",
  "every adapter in good order, every car, every protocol, every four bytes of bits (any framing and other lines), any answers to the other listings",
  "tests connect to one or two fixed transcripts; this ranges over all answers and protocols, and over everything asked before and after",
  [OB+": __load_commands, test_cmd", CO+": __mode1__, __mode2__, pid_getters", DE+": pid"])

out = os.path.join(os.path.dirname(os.path.abspath(__file__)), "..", "properties.jsonl")
with open(out, "w") as f:
    for x in P:
        f.write(json.dumps(x, ensure_ascii=False) + "\n")
print(len(P))
