{"id": "C01", "title": "CAN multi-frame round trip", "statement": "For every payload that an ECU segments over ISO 15765-2 (one first frame announcing its length, consecutive frames numbered 1,2,... modulo 16) and that the adapter prints as hex lines in order, calling a CAN protocol object on those lines returns exactly one message, whose data is the payload, whose tx_id is the ECU's, and which keeps every frame (mode-03 DTC payloads are additionally trimmed to the announced DTC count).", "quantifier": "every payload of 8..4095 bytes, every ECU id, both header widths, every padding of the last frame, every letter case and spacing of the hex text", "why_tests_cant": "A test exercises a few short payloads; the sequence-number unwrapping only matters after 16 frames and has to be right for every length up to 4095 bytes and every byte value.", "anchors": ["obd/protocols/protocol_can.py: CANProtocol.parse_frame, CANProtocol.parse_message", "obd/protocols/protocol.py: Protocol.__call__", "obd/utils.py: contiguous, isHex"]}
{"id": "C02", "title": "CAN single-frame round trip", "statement": "A single CAN frame carrying 1..7 payload bytes is returned as exactly one message with exactly these bytes; anything after the marked length is ignored.", "quantifier": "every payload of 1..7 bytes not starting with 0x43, every trailing padding that fits an 8-byte frame, every ECU id, both header widths", "why_tests_cant": "Padding bytes, lengths and ids multiply to far more cases than can be listed.", "anchors": ["obd/protocols/protocol_can.py: CANProtocol.parse_frame, CANProtocol.parse_message"]}
{"id": "C03", "title": "CAN multi-frame soundness", "statement": "Whenever a CAN protocol object returns a message built from several frames, these contained exactly one first frame, every consecutive frame was used exactly once, in an order in which the i-th carries sequence nibble i mod 16 starting at 1, and the data is the first frame's bytes followed by theirs, cut to the announced length (and to the DTC count for mode 03). No byte is invented, duplicated or reordered.", "quantifier": "every list of lines whatsoever", "why_tests_cant": "Adversarial or corrupted inputs are unbounded: duplicated, missing, foreign and reordered frames in any number.", "anchors": ["obd/protocols/protocol_can.py: CANProtocol.parse_message", "obd/utils.py: contiguous"]}
{"id": "C04", "title": "Loss of CAN frames is detected", "statement": "If an ECU's multi-frame answer arrives with frames missing, no message with wrong data is returned for it: a missing first frame or a missing consecutive frame before the last received one drops the message.", "quantifier": "every segmented payload and every non-empty set of lost frames", "why_tests_cant": "Loss patterns are exponential in the number of frames; the interesting ones (16 in a row, only the tail) are the ones nobody writes down.", "anchors": ["obd/protocols/protocol_can.py: CANProtocol.parse_message (lines 208-228)", "obd/utils.py: contiguous"]}
{"id": "C05", "title": "Tolerance to reordered CAN frames", "statement": "Consecutive frames that arrive out of order by at most 7 positions are put back in order and the payload is returned unchanged.", "quantifier": "every payload and every permutation of its consecutive frames within the stated window", "why_tests_cant": "The number of permutations is factorial; the repository's test shuffles three frames.", "anchors": ["obd/protocols/protocol_can.py: CANProtocol.parse_message (lines 207-222)"]}
{"id": "C06", "title": "ECUs do not interfere", "statement": "The messages returned for one ECU depend only on that ECU's own lines, in their relative order: interleaving the lines of several ECUs in any way changes nothing.", "quantifier": "every two line lists that agree on each ECU's subsequence and on the non-hex subsequence", "why_tests_cant": "All interleavings of all traffic.", "anchors": ["obd/protocols/protocol.py: Protocol.__call__"]}
{"id": "C07", "title": "Adapter text is passed through, never parsed", "statement": "Every line that is not pure hex (after removing spaces) yields exactly one message with empty data, ECU.UNKNOWN and the original text as raw(); these come after the OBD messages in arrival order and do not affect them.", "quantifier": "every list of lines, every protocol", "why_tests_cant": "Any text can come from an adapter.", "anchors": ["obd/protocols/protocol.py: Protocol.__call__", "obd/utils.py: isHex"]}
{"id": "C08", "title": "Malformed hex lines are ignored", "statement": "A hex line with an odd number of digits (after header padding), with too few or too many bytes, with an unknown PCI type or an announced length of zero changes nothing: the result is the same as without that line.", "quantifier": "every list of lines, every position and content of the malformed line", "why_tests_cant": "Unbounded inputs.", "anchors": ["obd/protocols/protocol_can.py: CANProtocol.parse_frame", "obd/protocols/protocol_legacy.py: LegacyProtocol.parse_frame", "obd/protocols/protocol.py: Protocol.__call__"]}
{"id": "C09", "title": "Parsing never raises", "statement": "Calling a protocol object on any list of text lines returns a list of messages and never raises an exception.", "quantifier": "every list of lines, every protocol", "why_tests_cant": "Needs every input; index errors hide in particular combinations of short frames.", "anchors": ["obd/protocols/protocol.py: Protocol.__call__", "obd/protocols/protocol_can.py: CANProtocol.parse_message (line 267)", "obd/protocols/protocol_legacy.py: LegacyProtocol.parse_message (lines 146-149)"]}
{"id": "C10", "title": "Legacy multi-frame round trip", "statement": "A legacy (J1850/9141/14230) answer split over several lines with order bytes 1..n is reassembled into mode, PID and the concatenated data, whatever order the lines arrive in; a gap or a duplicate order byte drops the message.", "quantifier": "every list of 2..255 data parts, every permutation of the lines, every header and checksum byte", "why_tests_cant": "All permutations and sizes.", "anchors": ["obd/protocols/protocol_legacy.py: LegacyProtocol.parse_frame, LegacyProtocol.parse_message", "obd/utils.py: contiguous"]}
{"id": "C11", "title": "Legacy trouble-code answers", "statement": "For mode 03 answers on legacy protocols the message data is 43 00 followed by the data bytes of all lines of that ECU in arrival order.", "quantifier": "every number of lines with every content", "why_tests_cant": "Unbounded number of lines.", "anchors": ["obd/protocols/protocol_legacy.py: LegacyProtocol.parse_message (lines 104-118)"]}
{"id": "C12", "title": "CAN trouble-code answers are cut to the announced count", "statement": "For a CAN message starting with 43, the data is cut after 2 + 2*count bytes, count being its second byte; no other message is cut below its announced length.", "quantifier": "every message", "why_tests_cant": "All counts against all lengths.", "anchors": ["obd/protocols/protocol_can.py: CANProtocol.parse_message (lines 262-268)"]}
{"id": "C13", "title": "Which ECU is the engine", "statement": "Constructing a protocol object from the answer to 0100 marks as ENGINE: the only responder if there is just one; else the responder with the protocol's engine id if present; else the first responder (by ascending id) with the most set bits. Other responders become UNKNOWN (or TRANSMISSION for CAN id 1). Construction always succeeds.", "quantifier": "every list of 0100 lines, every protocol", "why_tests_cant": "All sets of responders with all bitmaps.", "anchors": ["obd/protocols/protocol.py: Protocol.__init__, Protocol.populate_ecu_map"]}
{"id": "C14", "title": "Messages come one per ECU in ascending order", "statement": "The OBD messages returned carry strictly increasing tx ids, one message per ECU, and each is tagged with the ECU constant recorded for this id (UNKNOWN if there is none).", "quantifier": "every list of lines, every protocol", "why_tests_cant": "All inputs.", "anchors": ["obd/protocols/protocol.py: Protocol.__call__"]}
{"id": "C15", "title": "What a decoder is given", "statement": "When OBDCommand is called with messages, the decoder runs at most once, and only on a non-empty list: exactly the messages whose ECU bit is in the command's filter, in order, and if the command declares a positive size each has exactly that many bytes (cut on the right or zero-padded on the right, otherwise unchanged).", "quantifier": "every command (including custom ones with any decoder) and every message list", "why_tests_cant": "Users write their own decoders and index the data without checks: it must hold for every message.", "anchors": ["obd/OBDCommand.py: OBDCommand.__call__, OBDCommand.__constrain_message_data"]}
{"id": "C16", "title": "Null responses", "statement": "A response is null exactly when no message passed the command's ECU filter or the decoder returned None; when no message passes, value is None and the decoder is not run.", "quantifier": "every command and message list", "why_tests_cant": "All inputs.", "anchors": ["obd/OBDCommand.py: OBDCommand.__call__", "obd/OBDResponse.py: OBDResponse.is_null"]}
{"id": "C17", "title": "Commands are compared by header and request only", "statement": "Two commands are equal exactly when request bytes and header are equal; equality is an equivalence and equal commands hash equally, so either can be used to look up the other in supported_commands or among the watched commands.", "quantifier": "every pair of commands", "why_tests_cant": "All pairs.", "anchors": ["obd/OBDCommand.py: OBDCommand.__eq__, OBDCommand.__hash__"]}
{"id": "C18", "title": "mode and pid of a command", "statement": "mode is the number written by the first two hex digits and pid the number written by the remaining ones, for every all-hex request of sufficient length, and None otherwise.", "quantifier": "every request byte string", "why_tests_cant": "All byte strings.", "anchors": ["obd/OBDCommand.py: OBDCommand.mode, OBDCommand.pid"]}
{"id": "C19", "title": "Built-in commands decode every answer", "statement": "Evaluating any command of the built-in tables on any messages the protocol layer can deliver returns a response; no decoder raises.", "quantifier": "every built-in command, every list of messages with byte data", "why_tests_cant": "300 commands times all byte strings.", "anchors": ["obd/decoders.py: all decoders", "obd/commands.py: __mode1__ ... __mode9__, __misc__", "obd/OBDCommand.py: OBDCommand.__call__"]}
{"id": "C20", "title": "Trouble codes are decoded faithfully", "statement": "GET_DTC turns the bytes after mode and count, taken over all messages, into one code per byte pair in order, leaving out 00 00 pairs and a trailing odd byte; the code text determines the byte pair (letter from the top two bits, digit from the next two, then three hex digits).", "quantifier": "every list of messages; every pair of byte pairs (injectivity)", "why_tests_cant": "65536 codes and unbounded lists.", "anchors": ["obd/decoders.py: dtc, parse_dtc", "obd/utils.py: bytes_to_hex"]}
{"id": "C21", "title": "Known trouble codes carry their description", "statement": "For every code in the description table, decoding the corresponding two bytes returns the code as listed with its description; codes outside the table get an empty description.", "quantifier": "every table entry, every byte pair", "why_tests_cant": "2067 entries; tests check one.", "anchors": ["obd/decoders.py: parse_dtc", "obd/codes.py: DTC"]}
{"id": "C22", "title": "FREEZE_DTC without a stored code is null", "statement": "FREEZE_DTC answers carrying 00 00 (no freeze frame) decode to None just as in lists of codes; other pairs decode as in GET_DTC.", "quantifier": "every two-byte answer", "why_tests_cant": "All values.", "anchors": ["obd/decoders.py: single_dtc, parse_dtc (line 395)"]}
{"id": "C23", "title": "Units-and-scaling decoding is linear", "statement": "A value decoded through the units-and-scaling table equals raw*scale+offset up to floating-point rounding, raw being the big-endian value of the bytes, taken as two's complement for the signed ids.", "quantifier": "every table id and every two-byte value", "why_tests_cant": "65536 values times 93 ids, with IEEE rounding.", "anchors": ["obd/UnitsAndScaling.py: UAS.__call__, UAS_IDS", "obd/utils.py: bytes_to_int, twos_comp"]}
{"id": "C24", "title": "Sensor decoders implement the documented formulas", "statement": "Each scalar decoder (percent, temperature, pressure, voltage, timing, fuel rate ...) returns the documented linear function of its data bytes, up to floating-point rounding, within the documented range.", "quantifier": "every data byte (pair)", "why_tests_cant": "All byte values with IEEE rounding.", "anchors": ["obd/decoders.py: percent ... fuel_rate, absolute_load"]}
{"id": "C25", "title": "Status bits", "statement": "STATUS reports MIL, DTC count, ignition type and for each monitor its availability and completeness from exactly the bits the standard assigns, using the spark or the compression monitor names according to the ignition bit; monitors of the other ignition type stay null.", "quantifier": "every four-byte answer", "why_tests_cant": "2^32 answers.", "anchors": ["obd/decoders.py: status", "obd/OBDResponse.py: Status", "obd/codes.py: BASE_TESTS, SPARK_TESTS, COMPRESSION_TESTS"]}
{"id": "C26", "title": "O2 sensor presence bits", "statement": "O2_SENSORS and O2_SENSORS_ALT report for bank b, sensor s exactly the corresponding bit, most significant first; AUX_INPUT_STATUS is the top bit.", "quantifier": "every data byte", "why_tests_cant": "All values of all bits.", "anchors": ["obd/decoders.py: o2_sensors, o2_sensors_alt, aux_input_status", "obd/utils.py: BitArray"]}
{"id": "C27", "title": "Enumerated decoders are total", "statement": "Fuel status, secondary air status, OBD compliance and fuel type return the table text for each valid code and None (or an empty string) for every other code, and never raise.", "quantifier": "every data byte (pair)", "why_tests_cant": "All codes including reserved ones.", "anchors": ["obd/decoders.py: fuel_status, air_status, obd_compliance, fuel_type", "obd/codes.py: FUEL_STATUS, AIR_STATUS, OBD_COMPLIANCE, FUEL_TYPES"]}
{"id": "C28", "title": "Monitor results", "statement": "A mode 06 answer is read as consecutive 9-byte blocks (an incomplete rest is ignored); a block with a known units id becomes the result for its test id, the last one wins, and lookup by test id and by standard name agree; blocks with unknown units ids are left out.", "quantifier": "every message", "why_tests_cant": "All block sequences.", "anchors": ["obd/decoders.py: monitor, parse_monitor_test", "obd/OBDResponse.py: Monitor, MonitorTest"]}
{"id": "C29", "title": "Monitor verdict", "statement": "MonitorTest.passed is true exactly when the raw value lies between raw minimum and raw maximum (compared as signed numbers for signed units), floating-point scaling notwithstanding.", "quantifier": "every units id, every value, minimum and maximum (2^48 triples per id)", "why_tests_cant": "Rounding could make two different raw values compare equal.", "anchors": ["obd/OBDResponse.py: MonitorTest.passed", "obd/UnitsAndScaling.py: UAS.__call__", "obd/decoders.py: parse_monitor_test"]}
{"id": "C30", "title": "VIN and calibration strings are returned whole", "statement": "VIN and CALIBRATION_ID return the text sent by the car with only the padding (control bytes 0,1,2 and white space at the ends) removed.", "quantifier": "every text", "why_tests_cant": "All strings.", "anchors": ["obd/decoders.py: decode_encoded_string, cvn"]}
{"id": "C31", "title": "Adapter error text is not decoded as data", "statement": "When the adapter answers a command with text only (NO DATA, CAN ERROR, ...), the response is null.", "quantifier": "every built-in command except the adapter's own (AT) commands, every text line", "why_tests_cant": "All commands times all texts.", "anchors": ["obd/OBDCommand.py: OBDCommand.__call__", "obd/protocols/protocol.py: Protocol.__call__", "obd/commands.py: tables"]}
{"id": "C32", "title": "Bit arrays", "statement": "A supported-PIDs answer is exposed so that element i is bit 7-(i mod 8) of byte i/8, out-of-range indices are False, counts of set and cleared bits add up to the length, and value(a,b) is the big-endian number of this bit range.", "quantifier": "every byte string, every index and range", "why_tests_cant": "All byte strings.", "anchors": ["obd/utils.py: BitArray", "obd/decoders.py: pid"]}
{"id": "C33", "title": "Byte helpers", "statement": "bytes_to_int is the big-endian value, inverse to big-endian encoding; bytes_to_hex writes two lower-case digits per byte; twos_comp maps n-bit values onto -2^(n-1)..2^(n-1)-1 congruent modulo 2^n.", "quantifier": "every byte string, every width and value", "why_tests_cant": "Unbounded.", "anchors": ["obd/utils.py: bytes_to_int, bytes_to_hex, twos_comp"]}
{"id": "C34", "title": "Reading is independent of how the serial data is chopped", "statement": "The lines obtained from the adapter depend only on the bytes received up to and including the prompt, not on how the operating system splits them into reads.", "quantifier": "every byte stream whose only prompt is its last byte, every way of splitting it into non-empty chunks", "why_tests_cant": "The split is decided by the scheduler and the driver.", "anchors": ["obd/elm327.py: ELM327.__read"]}
{"id": "C35", "title": "Shape of received lines", "statement": "No line handed to the parser contains a carriage return, line feed or null character, or starts or ends with white space; the trailing prompt is removed.", "quantifier": "every byte stream, including invalid UTF-8", "why_tests_cant": "All byte streams.", "anchors": ["obd/elm327.py: ELM327.__read"]}
{"id": "C36", "title": "I/O errors disconnect and never escape a query", "statement": "If writing to or reading from the port fails at any point of a query, no exception is raised, status() becomes Not Connected, the port is closed, and from then on queries return null responses without touching the port.", "quantifier": "every history of calls and every failure point", "why_tests_cant": "Failure can strike at any byte of any exchange.", "anchors": ["obd/elm327.py: ELM327.__write, ELM327.__read, ELM327.send_and_parse", "obd/obd.py: OBD.query"]}
{"id": "C37", "title": "Connection set-up and status", "statement": "After construction the status is Car Connected only if the adapter acknowledged ATE0, ATH1 and ATL0 (and reported at least 6 volts if checked) and a protocol was selected; it is Not Connected, with the port closed, if opening the port, baud detection or one of these acknowledgements failed; OBD Connected is only possible with the voltage check.", "quantifier": "every adapter behaviour (any bytes, silences and errors)", "why_tests_cant": "The adapter's behaviour is unbounded.", "anchors": ["obd/elm327.py: ELM327.__init__, set_protocol, __isok, __error, close"]}
{"id": "C38", "title": "Protocol selection", "statement": "With no protocol given, the one the adapter reports (with or without the automatic mark A) is used if known; otherwise each protocol is tried in the fixed order and the first for which 0100 is not answered UNABLE TO CONNECT is used; protocol_id() reports it. An explicit protocol outside 1..A is refused without I/O.", "quantifier": "every adapter behaviour", "why_tests_cant": "All answers at every step.", "anchors": ["obd/elm327.py: ELM327.auto_protocol, manual_protocol, set_protocol"]}
{"id": "C39", "title": "Car Connected means the car answered", "statement": "If status() is Car Connected after construction, the car (not just the adapter) answered the 0100 request.", "quantifier": "every adapter behaviour", "why_tests_cant": "All answers.", "anchors": ["obd/elm327.py: ELM327.manual_protocol (lines 224-233), auto_protocol (lines 275-281)"]}
{"id": "C40", "title": "Baud detection", "statement": "With no baud rate given, the first rate of the fixed list at which the reply ends with the prompt is chosen, no further rate is tried, and the port's original timeout is back in force afterwards; if none answers, the connection is closed.", "quantifier": "every adapter behaviour", "why_tests_cant": "All replies at each rate.", "anchors": ["obd/elm327.py: ELM327.auto_baudrate, set_baudrate"]}
{"id": "C41", "title": "Low power", "statement": "After low_power() was acknowledged, the next query is preceded by exactly one wake-up write, after which none is sent until low_power() is acknowledged again; low_power and normal_power do no I/O when unconnected, and low_power() writes exactly one line.", "quantifier": "every history of calls", "why_tests_cant": "All histories.", "anchors": ["obd/elm327.py: ELM327.low_power, normal_power, send_and_parse"]}
{"id": "C42", "title": "Bounded waiting", "statement": "One command makes at most 12 attempts to read an answer, and each ends at the prompt, at a timeout or at an error.", "quantifier": "every adapter behaviour", "why_tests_cant": "Termination for every behaviour; the bound depends on accumulated floating-point rounding.", "anchors": ["obd/elm327.py: ELM327.__send (lines 482-495)"]}
{"id": "C43", "title": "Unconnected queries are silent", "statement": "query() on an unconnected object returns a null response without raising and without any port activity.", "quantifier": "every history after which the object is unconnected, every command, with and without force", "why_tests_cant": "All histories.", "anchors": ["obd/obd.py: OBD.query, OBD.status"]}
{"id": "C44", "title": "Unsupported commands are not sent", "statement": "query(cmd) without force writes nothing to the port and returns a null response unless cmd is in supported_commands, and for mode 06 also unless the protocol is one of 6-9.", "quantifier": "every state and command", "why_tests_cant": "All states.", "anchors": ["obd/obd.py: OBD.query, OBD.test_cmd, OBD.supports"]}
{"id": "C45", "title": "With fast=False the request is sent unaltered", "statement": "On a connection with fast disabled every transmitted query writes exactly the command's own bytes and a carriage return (after at most one header change), whatever was sent before.", "quantifier": "every history of queries", "why_tests_cant": "All histories.", "anchors": ["obd/obd.py: OBD.__build_command_string, OBD.query"]}
{"id": "C46", "title": "What fast mode may send", "statement": "On a fast connection a query writes the command's bytes, or these followed by the decimal number of frames seen at the first answer (only if the command allows it), or an empty line standing for one of these two; the frame count of a command never changes once recorded.", "quantifier": "every history of queries", "why_tests_cant": "All histories.", "anchors": ["obd/obd.py: OBD.__build_command_string, OBD.query"]}
{"id": "C47", "title": "An empty line always repeats the right command", "statement": "Whenever a fast query writes an empty line (which makes the adapter repeat its last command), the last non-empty line written to the port is the string this query stands for.", "quantifier": "every history of API calls", "why_tests_cant": "All histories, including failed queries, header switches and power commands.", "anchors": ["obd/obd.py: OBD.__build_command_string, OBD.__set_header, OBD.query", "obd/elm327.py: low_power, normal_power"]}
{"id": "C48", "title": "Header switching", "statement": "A command is transmitted only while the adapter's header, as last acknowledged, is the command's header; the header is changed only when needed.", "quantifier": "every history of queries and adapter behaviours", "why_tests_cant": "All histories.", "anchors": ["obd/obd.py: OBD.__set_header, OBD.query"]}
{"id": "C49", "title": "Supported commands are learned from the car", "statement": "After connecting, supported_commands consists of the base commands and exactly those table commands whose bit is set in a supported-PIDs answer that was actually requested, mode 1 bits also enabling the mode 2 twin; a listing command is only requested if it is itself supported.", "quantifier": "every set of answers by the car", "why_tests_cant": "All bitmaps and failures.", "anchors": ["obd/obd.py: OBD.__load_commands", "obd/commands.py: Commands.pid_getters, base_commands, has_pid"]}
{"id": "C50", "title": "Automatic port choice", "statement": "With no port given, ports are tried in order and the first with a working adapter is used.", "quantifier": "every list of ports and behaviours", "why_tests_cant": "All combinations.", "anchors": ["obd/obd.py: OBD.__connect (line 89)", "obd/utils.py: OBDStatus, scan_serial"]}
{"id": "C51", "title": "close()", "statement": "After close() status is Not Connected, supported_commands is empty, port_name and protocol names are empty, the port was sent ATZ and closed, and repeating close() does nothing.", "quantifier": "every state", "why_tests_cant": "All states.", "anchors": ["obd/obd.py: OBD.close", "obd/elm327.py: ELM327.close"]}
{"id": "C52", "title": "A query never raises on a built-in command", "statement": "For every built-in command and every adapter behaviour query() returns a response instead of raising.", "quantifier": "every state and behaviour", "why_tests_cant": "All behaviours.", "anchors": ["obd/obd.py: OBD.query (line 292)", "obd/protocols/protocol.py: Protocol.__call__", "obd/decoders.py: air_status"]}
{"id": "C53", "title": "Watching is a subscription table", "statement": "watch, unwatch and unwatch_all behave like operations on a map from commands to callback lists: watch adds (once), unwatch(cmd, callback) removes only this callback, unwatch(cmd) removes the command, others are untouched.", "quantifier": "every sequence of calls while stopped", "why_tests_cant": "All sequences.", "anchors": ["obd/asynchronous.py: Async.watch, unwatch, unwatch_all"]}
{"id": "C54", "title": "No change of subscriptions while running", "statement": "While the update loop is running, watch, unwatch and unwatch_all change nothing.", "quantifier": "every state and call", "why_tests_cant": "All states.", "anchors": ["obd/asynchronous.py: Async.watch, unwatch, unwatch_all"]}
{"id": "C55", "title": "One pass of the update loop", "statement": "A pass queries every watched command exactly once in subscription order, stores each answer and then calls the command's callbacks in registration order with that same answer.", "quantifier": "every subscription table and every sequence of answers", "why_tests_cant": "All tables and answers.", "anchors": ["obd/asynchronous.py: Async.run"]}
{"id": "C56", "title": "After stop() nothing runs", "statement": "When stop() has returned normally no update thread is alive and no callback is called until start() is called again; at no time are two update threads alive.", "quantifier": "every interleaving of the user thread with the update threads", "why_tests_cant": "All schedules.", "anchors": ["obd/asynchronous.py: Async.start, stop, run"]}
{"id": "C57", "title": "The update thread is never disturbed by subscription changes", "statement": "In no interleaving does the update thread hit a missing callback list or a subscription table changed during iteration, as long as callbacks themselves do not call the API.", "quantifier": "every interleaving and history", "why_tests_cant": "All schedules.", "anchors": ["obd/asynchronous.py: Async.run, watch, unwatch"]}
{"id": "C58", "title": "paused() restores the loop", "statement": "Leaving a with-paused() block restarts the loop exactly if it was running on entry, also when such blocks are nested.", "quantifier": "every history", "why_tests_cant": "All nestings.", "anchors": ["obd/asynchronous.py: Async.__enter__, __exit__"]}
{"id": "C59", "title": "Non-blocking query returns the latest answer", "statement": "Async.query returns the last answer stored by the loop for a watched command, an empty response before the first one or if the command is not watched, without port activity.", "quantifier": "every interleaving", "why_tests_cant": "All schedules.", "anchors": ["obd/asynchronous.py: Async.query, run"]}
{"id": "C60", "title": "stop() never fails", "statement": "stop() returns normally in every interleaving, also when the device disconnects at the same moment.", "quantifier": "every interleaving", "why_tests_cant": "Race between two threads.", "anchors": ["obd/asynchronous.py: Async.stop, run (lines 208-212)"]}
{"id": "C61", "title": "Disconnection ends the loop", "statement": "After the device disconnects the update thread ends at its next step to a command without querying it, and running becomes false.", "quantifier": "every interleaving", "why_tests_cant": "All schedules.", "anchors": ["obd/asynchronous.py: Async.run"]}
{"id": "C62", "title": "running tells the truth", "statement": "If running is true, an update thread is alive.", "quantifier": "every interleaving, including callbacks or decoders that raise", "why_tests_cant": "All schedules.", "anchors": ["obd/asynchronous.py: Async.run, Async.running"]}
{"id": "C63", "title": "Command tables", "statement": "Every entry of the mode tables sits at the index of its PID in the list of its mode, names and (header, request) pairs are unique, lookup by name, by mode and PID and has_pid/has_name/has_command agree.", "quantifier": "every entry, every mode and pid number", "why_tests_cant": "has_pid ranges over all integers.", "anchors": ["obd/commands.py: Commands"]}
{"id": "C64", "title": "Mode 2 mirrors mode 1", "statement": "For every mode 1 command there is the mode 2 command with the same PID, size, ECU filter and decoder (dropped for PID listings).", "quantifier": "every entry", "why_tests_cant": "Table-wide relation.", "anchors": ["obd/commands.py: __mode2__"]}
{"id": "C65", "title": "Legacy pending trouble codes", "statement": "GET_CURRENT_DTC on a legacy protocol reports the codes in the answer, as GET_DTC does.", "quantifier": "every answer", "why_tests_cant": "All answers.", "anchors": ["obd/protocols/protocol_legacy.py: LegacyProtocol.parse_message (line 104)", "obd/decoders.py: dtc", "obd/commands.py: GET_CURRENT_DTC"]}
{"id": "C66", "title": "Printed voltages are read correctly", "statement": "ELM_VOLTAGE returns the double nearest to the decimal number the adapter printed (with or without a sign, a point and a V); with the voltage check on, no car is asked on a printed voltage below 6 V and exactly those count as too low; text that is no number gives a null response.", "quantifier": "every printed decimal, every adapter behaviour at connection", "why_tests_cant": "Infinitely many numerals; correct rounding and the threshold are for all of them.", "anchors": ["obd/decoders.py: elm_voltage", "obd/elm327.py: ELM327.__init__ (lines 178-197)"]}
{"id": "C67", "title": "From the wire to the value", "statement": "Whatever the history of the connection, the payload a query decodes is what the first ECU heeded by the command (by id) put on the wire, through any framing, padding, order of other ECUs and text lines; a scalar sensor's value is then the documented formula of those bytes; commands for the engine heed the ECU taken for the engine and no other.", "quantifier": "every session, command, protocol object, answer, framing, interleaving with other ECUs and texts", "why_tests_cant": "Composition of all layers over all inputs.", "anchors": ["obd/obd.py: OBD.query", "obd/elm327.py: ELM327.send_and_parse", "obd/protocols/protocol.py: Protocol.__call__", "obd/OBDCommand.py: OBDCommand.__call__", "obd/decoders.py"]}
{"id": "C68", "title": "Trouble codes end to end", "statement": "GET_DTC (and GET_CURRENT_DTC on CAN) returns the codes reported by all ECUs, in ascending order of their ids, each with its SAE name and description, without padding, and nothing else.", "quantifier": "every session, any set of reporting ECUs, any framing and interleaving", "why_tests_cant": "All answers of all sets of ECUs.", "anchors": ["obd/obd.py: OBD.query", "obd/protocols/protocol_can.py: CANProtocol.parse_message", "obd/protocols/protocol_legacy.py: LegacyProtocol.parse_message", "obd/decoders.py: dtc"]}
{"id": "C69", "title": "Fresh answers", "statement": "A response is determined by the command, the protocol found at connection and the lines received after the last line was written; for all commands but the trouble code and adapter ones the value depends on nothing but what the first ECU heeded said.", "quantifier": "every two sessions and histories", "why_tests_cant": "Absence of influence of all earlier history.", "anchors": ["obd/obd.py: OBD.query", "obd/elm327.py: ELM327.__send, __read"]}
{"id": "C70", "title": "Only the answer to the request is decoded", "statement": "A value is only returned for an answer to the very request that was sent (its mode and PID); without an answer from an ECU the command heeds, the response is null.", "quantifier": "every answer", "why_tests_cant": "All answers.", "anchors": ["obd/OBDCommand.py: OBDCommand.__call__", "obd/decoders.py"]}
{"id": "C71", "title": "Freeze frame values", "statement": "A freeze frame query (mode 02) returns the value of the data bytes in the answer (mode, PID, frame number, data).", "quantifier": "every scalar sensor, every answer", "why_tests_cant": "All answers.", "anchors": ["obd/commands.py: __mode2__", "obd/decoders.py"]}
{"id": "C72", "title": "Connection attributes", "statement": "While a connection lasts, status(), is_connected(), port_name(), protocol_id() and protocol_name() say what they said before, whatever is done with it, and the same ECU map is used; the id and name are one of the documented pairs or empty; without a connection the port name is empty; the accessors never raise.", "quantifier": "every history of calls, every port behaviour", "why_tests_cant": "All histories.", "anchors": ["obd/obd.py: status, protocol_id, protocol_name, port_name, is_connected"]}
{"id": "C73", "title": "Callbacks may query, start and re-watch", "statement": "Callbacks that call only query(), start() and, while running is true, watch/unwatch/unwatch_all, change nothing about the program: every state it reaches is one it could reach if the callbacks made no calls and took no time; these calls never raise; query() in a callback returns the latest answer, for the callback's own command the very answer it was called with.", "quantifier": "every program, every behaviour of the callbacks within these calls, every interleaving", "why_tests_cant": "All callbacks and schedules.", "anchors": ["obd/asynchronous.py: Async.run (lines 219-222), query, start, watch, unwatch"]}
{"id": "C74", "title": "Subscription changes made in a callback are ignored", "statement": "watch, unwatch and unwatch_all called in a callback return at once and change nothing, since the loop is running.", "quantifier": "every program and interleaving", "why_tests_cant": "A race with the user's stop().", "anchors": ["obd/asynchronous.py: Async.watch, unwatch, unwatch_all, stop, run"]}
{"id": "C75", "title": "stop(), close() and paused() in a callback", "statement": "Called in a callback, whatever callbacks do, they never deadlock or return: they raise RuntimeError within a bounded number of steps; running is then False and stays so while this loop lasts, which asks only a bounded number of further commands; connection and port are as before; start() can then start the loop again.", "quantifier": "every program, every behaviour of callbacks, every interleaving", "why_tests_cant": "All callbacks and schedules; absence of deadlock.", "anchors": ["obd/asynchronous.py: Async.stop, close, __enter__, start, run"]}
{"id": "C76", "title": "Port scan", "statement": "scan_serial() tries the documented candidates of the platform once each and in order (Linux: rfcomm then ttyUSB; BSD; macOS; Windows/Cygwin COM numbers), returns exactly those that open, leaves every port it opened closed, passes over ports that fail softly, and lets any other error out; OBD() without a port opens only ports the scan returned, in that order, each at most once.", "quantifier": "every platform string, every set of existing device names, every behaviour of each port when opened", "why_tests_cant": "All machines.", "anchors": ["obd/utils.py: try_port, scan_serial", "obd/obd.py: OBD.__connect"]}
{"id": "C77", "title": "A willing adapter and car connect", "statement": "If the port opens and never fails, says its prompt at one of the tried baud rates, the adapter accepts the set-up, the voltage is sufficient, and the car answers 0100 and the listings it is asked for, then OBD() returns an object that is CAR_CONNECTED to this port at this baud rate in this protocol, supports exactly the base commands and what the car listed, has read exactly those answers and no byte more, and answers the next supported query with the decoded reply.", "quantifier": "every configuration, every chunking of the answers, every protocol, every set of listed commands", "why_tests_cant": "Liveness over all adapters and cars.", "anchors": ["obd/obd.py: OBD.__init__, __connect, __load_commands, query", "obd/elm327.py: ELM327.__init__, auto_baudrate, set_protocol, send_and_parse"]}
{"id": "C78", "title": "Every open port is accounted for", "statement": "At any moment of any session the library holds exactly one open port while status() is not 'Not Connected', and none otherwise; it never uses a port while none is open; close() leaves none open.", "quantifier": "every configuration, every world, every history of calls, every interleaving of update thread and callbacks", "why_tests_cant": "Resource accounting over all histories and failures.", "anchors": ["obd/obd.py: OBD.__init__, __connect, close", "obd/elm327.py: ELM327.__init__, close, __write, __read"]}
{"id": "C79", "title": "One thread at a time uses the connection", "statement": "At most one thread is inside query() or close() of the connection: two update threads never ask at the same time, the user's close() never runs while one asks, and close() in a callback never gets there; from the moment one is about to ask until it has, nobody else touches the connection.", "quantifier": "every program, callback behaviour and interleaving", "why_tests_cant": "Mutual exclusion over all schedules.", "anchors": ["obd/asynchronous.py: Async.start, stop, close, run"]}
{"id": "C80", "title": "A running update loop keeps asking", "statement": "After start(), as long as its thread gets time and has not ended, the loop makes progress: some number of its steps suffices for every watched command to be asked again and every callback to be called with a new answer, whatever the other threads do in between; and it ends only because stop() (also inside close() or paused()) is waiting for it, the connection is gone, or a query or a callback raised.", "quantifier": "every program, interleaving and number of rounds", "why_tests_cant": "Liveness under every fair schedule; a test can wait for one round.", "anchors": ["obd/asynchronous.py: Async.run, start, stop"]}
{"id": "C81", "title": "Structured readings, from the wire to the value", "statement": "When the first heeded ECU answers a query for the status, the oxygen sensors present, the auxiliary input, fuel status, fuel type, OBD compliance, the freeze-frame code or a mode 06 monitor, the response carries exactly what its bytes say (bit for bit, test for test), whatever else is on the wire and however the protocol cut the answer into lines.", "quantifier": "every session, protocol, line order, other ECUs' traffic and payload", "why_tests_cant": "All payloads and all wire schedules; a decoder test starts from a ready message.", "anchors": ["obd/obd.py: OBD.query", "obd/OBDCommand.py: OBDCommand.__call__", "obd/decoders.py: status, o2_sensors, fuel_status, obd_compliance, fuel_type, single_dtc, monitor", "obd/protocols/protocol.py: Protocol.__call__"]}
{"id": "C82", "title": "Marking a command as supported", "statement": "After supported_commands.add(c) a query of c (or of any command with the same request and header) without force behaves exactly like a forced one - same lines, same result, same state - until close(); a mode 06 command still needs a CAN protocol. Adding does nothing at the port and changes nothing else; a command neither found on connecting nor added is never sent; the set never holds the same command twice.", "quantifier": "every session, every history of calls, every custom command", "why_tests_cant": "It ranges over all histories of add, query, power and close calls and over all commands a user can build.", "anchors": ["obd/obd.py: OBD.supported_commands, supports, test_cmd, query, close", "obd/OBDCommand.py: OBDCommand.__eq__, __hash__", "docs/Connections.md", "docs/Custom Commands.md"]}
{"id": "C83", "title": "Using the connection of an Async object is indivisible", "statement": "Although a query of the update loop (and close()) is many separate accesses to the port and to the connection's attributes, and other threads may run between any two of them, the outcome is always one that could arise if each were a single step: a query reports and leaves behind exactly what it would alone, no matter what the user calls meanwhile (start, stop, close, watch, unwatch, query, paused()), no two threads are ever in the middle of using the connection, and each query and close() comes to its end.", "quantifier": "every program without power calls and every interleaving of the single port and attribute accesses", "why_tests_cant": "Every point between two accesses of every call is a place where another thread may run.", "anchors": ["obd/asynchronous.py: Async.run, close, start, stop", "obd/obd.py: OBD.query, close, __set_header", "obd/elm327.py: ELM327.send_and_parse, __send, __write, __read, close"]}
{"id": "C84", "title": "Power calls on an Async connection", "statement": "low_power() and normal_power() on an Async connection take effect as on a connection without threads: the call and the loop's queries each get the adapter's answers that belong to them.", "quantifier": "every program and every interleaving of the single port and attribute accesses", "why_tests_cant": "Every point between two accesses of every call is a place where another thread may run.", "anchors": ["obd/obd.py: OBD.low_power, normal_power", "obd/asynchronous.py: Async.run", "obd/elm327.py: ELM327.low_power, normal_power, send_and_parse, __send"]}
{"id": "C85", "title": "Looking at a connection in use", "statement": "status(), is_connected(), port_name(), protocol_id(), protocol_name() and supports(), called on an Async connection between other calls while the update loop is in the middle of a query, return what was true at some moment of the call - the value before that query or the value after it, never something else - without raising, without waiting for the query, and without changing anything.", "quantifier": "every program, every interleaving of the single accesses of the looks and of the loop's queries", "why_tests_cant": "Every point between two accesses of every call is a place where another thread may run.", "anchors": ["obd/obd.py: OBD.status, is_connected, port_name, protocol_id, protocol_name, supports", "obd/elm327.py: ELM327.port_name, status, protocol_id, protocol_name, close", "obd/asynchronous.py: Async.run"]}
{"id": "C86", "title": "The response is what the command tables of the documentation say", "statement": "Every command in the documented command tables exists under its documented name, mode, PID and description, and there are no undocumented ones. Whatever is on the wire, a query for a documented command returns no value or a value of the documented response type: a number with the documented unit, one of the documented status strings, a tuple of the documented shape, a monitor with the documented tests, and so on; the freeze-frame commands DTC_... of mode 02 return what the mode 01 command of that name returns.", "quantifier": "every row of the documented tables, every session, every adapter reply, every query", "why_tests_cant": "It ranges over all rows of the documentation and everything a car or adapter may print.", "anchors": ["docs/Command Tables.md", "docs/Responses.md", "obd/commands.py: __mode1__, __mode2__, __mode6__, __mode9__, __misc__", "obd/decoders.py: all decoders", "obd/obd.py: OBD.query"]}
{"id": "C87", "title": "With a well-behaved adapter, one query is one request to the car, and the response is the car's answer to it", "statement": "With an adapter that works as its data sheet says and any car: after OBD(portname, fast=False), whatever was queried before, a query that may be sent puts exactly one request to the car, the command's own; the response is made of exactly the lines the car answers to it, in full; questions to the adapter and queries that are not sent leave the car alone; the adapter stays set up (no echo, headers printed) and the connection is never lost.", "quantifier": "every car (any nondeterministic, stateful behaviour), every state the adapter was in before, every way its output is cut into reads, every history of queries", "why_tests_cant": "It ranges over all cars, all timings of the serial port and all histories.", "anchors": ["obd/elm327.py: ELM327.__init__, send_and_parse, set_header", "obd/obd.py: OBD.query, __build_command_string"]}
{"id": "C88", "title": "Which ECUs a command is sent to does not depend on earlier queries", "statement": "With an adapter that works as its data sheet says: the request for a command reaches the same ECUs (is sent with the same header) whatever was queried before, so that in the same state of the car the response is the same.", "quantifier": "every car, every two histories of queries", "why_tests_cant": "It compares all pairs of histories.", "anchors": ["obd/elm327.py: set_header, ELM327.__init__", "obd/obd.py: OBD.query", "obd/protocols/protocol.py: ECU_HEADER"]}
{"id": "C89", "title": "fast=True only saves time", "statement": "With an adapter that works as its data sheet says: with fast=True (the default) a query puts the same request to the car as with fast=False, and in the same state of the car it gives the same response.", "quantifier": "every car, every history of queries", "why_tests_cant": "It compares sessions with every car, including cars whose answers vary in time.", "anchors": ["obd/obd.py: OBD.query, __build_command_string, __frame_counts, __last_command", "docs/Connections.md: fast"]}
{"id": "C90", "title": "With a well-behaved adapter, the update loop's requests and what the user gets of them", "statement": "With an adapter that works as its data sheet says and any car: whatever an Async object (made by Async(portname, fast=False)) is told to do by start, stop, watch, unwatch, query, paused blocks and close, and however its threads are scheduled, the car is asked exactly what the update loop queries, one request per query and in that order, and each response is made of the car's answer to its request; callbacks and query() give out only such responses (or empty ones); the connection is never lost before close(), so the loop ends only because it is being stopped or because a query or a callback raised.", "quantifier": "every car (any nondeterministic, stateful behaviour), every adapter state before, every program of API calls, every interleaving of the threads", "why_tests_cant": "It ranges over all cars, programs and schedules.", "anchors": ["obd/asynchronous.py: Async.run, start, stop, watch, unwatch, query, close", "obd/obd.py: OBD.query, close", "obd/elm327.py: ELM327.__init__, send_and_parse, close"]}
{"id": "C91", "title": "Power modes do not change what queries do", "statement": "With an adapter that goes to sleep on ATLP and is woken by anything that is written to it: whatever low_power() and normal_power() calls are made between the queries, a query that is sent is exactly one request to the car, the command's own, and its response is made of the car's answer; low_power() and normal_power() themselves send nothing to the car; and after low_power() the adapter is asleep until the next query that is sent or the next normal_power().", "quantifier": "every car, every adapter state before, every way of waking up, every history of calls", "why_tests_cant": "It ranges over all cars, adapters and histories.", "anchors": ["obd/obd.py: OBD.low_power, normal_power, query", "obd/elm327.py: ELM327.low_power, normal_power, send_and_parse"]}
{"id": "C92", "title": "start_low_power=True connects to a sleeping adapter, and does no harm to one that is awake", "statement": "With start_low_power=True, a connection to an adapter that is asleep ends, if it is made, with the adapter awake, echo off, headers on and the header it starts with, whatever it forgot in its sleep; and with an adapter that is awake, the car gets the same requests as without start_low_power.", "quantifier": "every car, every adapter state before (awake or asleep), every way of waking up", "why_tests_cant": "It ranges over all cars, adapters and environments.", "anchors": ["obd/obd.py: OBD.__init__", "obd/elm327.py: ELM327.__init__"]}
{"id": "C93", "title": "repr(command) is an expression that makes the command again", "statement": "Evaluating repr(c) gives a command with the same name, description, request, length, ECU filter, fast flag and header as c (its decoder is raw_string); so the two are equal, and commands that differ in one of these are printed differently.", "quantifier": "every command: any name, description, request and header (quotes, backslashes, line breaks, any Unicode, any bytes), every notion of which characters are printable", "why_tests_cant": "The strings are unbounded and the escapes interact.", "anchors": ["obd/OBDCommand.py: OBDCommand.__repr__", "obd/protocols/protocol.py: ECU, ECU_HEADER"]}
{"id": "C94", "title": "What str(command) and print_commands() show", "statement": "str(c) shows the request (after the header, if it is not the default) and the description, so that commands shown alike are equal; print_commands() prints one line per supported command.", "quantifier": "every command, every set of supported commands, every order of the set", "why_tests_cant": "The strings and sets are unbounded.", "anchors": ["obd/OBDCommand.py: OBDCommand.__str__", "obd/obd.py: OBD.print_commands"]}
{"id": "C95", "title": "Messages show the adapter's own lines", "statement": "raw() of a message shows, in the order they arrived and one below the other, lines the adapter sent after the last line written (hex lines without their spaces); no line is shown twice or by two messages; text that is not hex gives a message of its own; hex() shows the message's data; a command decoded with raw_string has the text of its messages as value.", "quantifier": "every protocol, every list of lines, every command and session", "why_tests_cant": "It ranges over all answers, including interleaved, damaged and reordered ones.", "anchors": ["obd/protocols/protocol.py: Protocol.__call__, Message.raw, Message.hex", "obd/decoders.py: raw_string", "obd/OBDCommand.py: OBDCommand.__call__", "docs/Custom Commands.md"]}
{"id": "C96", "title": "An answer that comes late is not taken for the answer to a later query", "statement": "With an adapter whose output may take any time to arrive (reads time out while there is more to come), a query that is sent is one request to the car, and its response is made only of what the car answers to that very request; the connection is kept.", "quantifier": "every car, every delay of every byte, every way of cutting the output into reads, every history of queries", "why_tests_cant": "It ranges over all timings, cars and histories.", "anchors": ["obd/elm327.py: ELM327.__read, __send, __write, send_and_parse", "obd/obd.py: OBD.query"]}
{"id": "C97", "title": "A query that times out gives no wrong value", "statement": "If a time-out cuts the answer to a query short, the value is that of the complete answer, or there is none (the response is null).", "quantifier": "every answer, every place at which it is cut, every command, protocol and session", "why_tests_cant": "It ranges over all answers and all timings.", "anchors": ["obd/elm327.py: ELM327.__read, __send", "obd/protocols/protocol_can.py: CANProtocol.parse_frame, parse_message", "obd/OBDCommand.py: OBDCommand.__call__, __constrain_message_data"]}
{"id": "C98", "title": "A time-out never makes a later request go to another ECU", "statement": "Whatever output of the adapter comes late, every request goes to the header of its command (or to all ECUs as long as no command with another header than the engine's was sent).", "quantifier": "every car, every delay of every byte, every history of queries of commands with any headers", "why_tests_cant": "It ranges over all timings and histories.", "anchors": ["obd/obd.py: OBD.query, __set_header", "obd/elm327.py: ELM327.send_and_parse, __read"]}
{"id": "C99", "title": "A printed report says what was found", "statement": "str() of a mode 06 response has one line for each test with a result, saying which test it is, its value and whether it passed (in the order of the standard's test ids, then the manufacturer's tests as they occur), or says that there is none; len() is the number of these tests; a status test is printed with its name and the two bits of the answer; unit is None exactly if there is no value.", "quantifier": "every message, every division into blocks, every rendering of quantities without line breaks", "why_tests_cant": "All block sequences, with repeated, unknown and manufacturer-specific tests in any order.", "anchors": ["obd/OBDResponse.py: OBDResponse.unit, StatusTest.__str__, Monitor.__str__, Monitor.__len__, MonitorTest.__str__", "obd/decoders.py: monitor, status"]}
{"id": "C100", "title": "The update loop with fast=True", "statement": "With an adapter that works as its data sheet says and any car: an Async object made with fast=True (the default) that watches commands with the engine's header puts to the car, in the order of the update loop's queries and under every schedule, one request per query and nothing else, as long as no query raised: the command's own, with the number of frames of the first answer to that command in decimal behind it from the second query on, which the adapter takes as a limit if it has one digit; each response is made of the lines it then gives; callbacks and query() give out only such responses (or empty ones), the connection is kept until close(), and the loop ends only because it is being stopped or because a query or a callback raised.", "quantifier": "every car (any nondeterministic, stateful behaviour), every adapter state before, every program of API calls, every interleaving of the threads", "why_tests_cant": "It ranges over all cars, programs and schedules.", "anchors": ["obd/asynchronous.py: Async.run, start, stop, watch, unwatch, query, close", "obd/obd.py: OBD.query, __build_command_string, __frame_counts, __last_command, close"]}
{"id": "C101", "title": "What an Async user is shown is what the car measured", "statement": "With an adapter that works as its data sheet says and any car, under every schedule: every response a callback is called with, and every non-empty response query() returns, is the reading of an answer the car gave to that very command, in a state it was in after it had answered the update loop's queries before. So if the car, whenever asked, truthfully answers with what a sensor measures, the value shown is what the sensor measured in such a state, in the documented unit and up to rounding; and for GET_DTC it is the list of the codes of all reporting ECUs. With fast=True this holds for commands of which every answer of the car has the same number of lines, from 1 to 9.", "quantifier": "every car, every adapter state before, every program of API calls, every interleaving of the threads, every sensor and every measured value", "why_tests_cant": "It ranges over all cars, measured values, programs and schedules.", "anchors": ["obd/asynchronous.py: Async.run, watch, unwatch, query", "obd/obd.py: OBD.query", "obd/OBDCommand.py: OBDCommand.__call__", "obd/decoders.py: percent, temp, speed, uas, dtc"]}
{"id": "C102", "title": "query() returns what the car measures at the time of the call", "statement": "With an adapter that works as its data sheet says and any car, after any history of queries: if the car, whenever asked, truthfully answers with what a sensor measures, then a query() of the sensor's command that is sent and returns has as value what the sensor measures in the state the car is in at that call (never an older measurement), in the documented unit and up to rounding; and for GET_DTC the list of the codes of all ECUs that are asked. With fast=True this holds for commands of which every answer of the car has the same number of lines, from 1 to 9.", "quantifier": "every car, every adapter state before, every history of queries, every sensor and every measured value", "why_tests_cant": "It ranges over all cars, measured values and histories.", "anchors": ["obd/obd.py: OBD.query, __build_command_string", "obd/elm327.py: ELM327.send_and_parse", "obd/OBDCommand.py: OBDCommand.__call__", "obd/decoders.py: percent, temp, speed, uas, dtc"]}
{"id": "C103", "title": "An Async object with a slow adapter asks the car once per query, and shows only answers to its own requests", "statement": "However slow the adapter is (its output may take any time, reads time out), under every schedule of the user's thread and the update threads, an Async object made with fast=False whose watched commands have the engine's header puts to the car exactly one request per query of the update loop, the command's own, and nothing else; query() and the callbacks give only responses to these; timeouts never end the connection or the loop: the loop ends only if it is stopped or something raised. And as long as output that comes too late is thrown away before the next line is written, each response is made only of a part of the car's own answer to that very request (its first lines and perhaps a part of the next one, if what is read is plain ASCII).", "quantifier": "every car, every delay of the adapter's output, every program of calls and every schedule", "why_tests_cant": "It ranges over all delays, schedules and cars.", "anchors": ["obd/asynchronous.py: Async.run, watch, unwatch, query, stop, close", "obd/obd.py: OBD.query", "obd/elm327.py: ELM327.__send, __read, __write"]}
{"id": "C104", "title": "delay_cmds is the pace of the update loop", "statement": "Between two queries of the same command on the connection of an Async object at least delay_cmds seconds pass, whichever update threads make them, whatever is stopped, watched and started in between and however long queries, callbacks and scheduling take, unless an exception ended the thread that made the first; so a command asked n+1 times was asked over at least n times delay_cmds. An update thread sleeps only between rounds, with every watched command asked equally often and its callbacks called, and for delay_cmds; with delay_cmds=0 it never sleeps. Sleeping does not rule out any order of steps.", "quantifier": "every delay, every timing and schedule of the threads, every program of calls", "why_tests_cant": "It ranges over all timings and interleavings.", "anchors": ["obd/asynchronous.py: Async.__init__, run, start, stop"]}
{"id": "C105", "title": "OBD() and Async() give every argument the documented meaning", "statement": "OBD() gives every parameter the value that the documented signature gives it for the positional and keyword arguments of the call, in any mix of the two, with the documented defaults; passes each on to where it belongs (port, baud rate, protocol, fast mode, timeout, voltage check, low-power start); and raises TypeError for a call the signature does not allow. Every call of OBD() has the same meaning for Async(), with a delay_cmds of 0.25 s.", "quantifier": "every list of positional arguments and every set of keyword arguments", "why_tests_cant": "It ranges over all mixes of positional and keyword arguments with all values.", "anchors": ["obd/obd.py: OBD.__init__, __connect", "obd/asynchronous.py: Async.__init__", "obd/elm327.py: ELM327.__init__", "docs/Connections.md"]}
{"id": "C106", "title": "Async(), query(), watch(), unwatch() and OBDCommand() take the arguments that are documented", "statement": "Every call the documented signature of Async(), query(), watch(), unwatch() or OBDCommand() allows, with any mix of positional and keyword arguments, gives every parameter the value the signature says, and every other call raises TypeError; each argument of OBDCommand() becomes the property of that name.", "quantifier": "every list of positional arguments and every set of keyword arguments", "why_tests_cant": "It ranges over all mixes of positional and keyword arguments with all values.", "anchors": ["obd/obd.py: query", "obd/asynchronous.py: Async.__init__, query, watch, unwatch", "obd/OBDCommand.py: OBDCommand.__init__", "docs/Connections.md", "docs/Async Connections.md", "docs/Custom Commands.md"]}
{"id": "C107", "title": "Async.query() may be called from any thread", "statement": "Any number of threads may call query() of an Async object while the user's thread starts, stops, watches and unwatches and the update loop runs: a call never waits, never raises, changes nothing, and returns the latest response at some moment of the call (the empty one if the command was not watched then).", "quantifier": "every number of reader threads, every program of calls, every interleaving", "why_tests_cant": "It ranges over all interleavings of any number of threads.", "anchors": ["obd/asynchronous.py: query, watch, unwatch, unwatch_all, run"]}
{"id": "C108", "title": "Answers are read in the format of the protocol the connection shows", "statement": "While connected, protocol_id() is one of the documented ids or empty. With 1-5 the answers are read as lines of three header bytes, data and checksum; with 6 and 8 as CAN frames with 11-bit ids, with 7, 9 and A with 29-bit ids, and the data and sender of every message are those on the wire; with no protocol no line is taken for data.", "quantifier": "every session with every adapter and car, every answer", "why_tests_cant": "It ranges over all sessions, protocols and answers.", "anchors": ["obd/elm327.py: _SUPPORTED_PROTOCOLS, set_protocol", "obd/protocols/protocol_can.py", "obd/protocols/protocol_legacy.py", "obd/protocols/protocol_unknown.py"]}
{"id": "C109", "title": "With fast=True, an answer that once came too late does not matter later", "statement": "On a fast connection to an adapter whose output may take any time to arrive, a query is one request to the car, the command's own, and its response is made of nothing but what the car answers to this request; a query that was cut off by a time-out has no influence on what later queries of the same command return, if their answers come in time.", "quantifier": "every car, every session with fast=True and every timing of the adapter's output", "why_tests_cant": "It ranges over all histories, cars and timings.", "anchors": ["obd/obd.py: OBD.query, OBD.__build_command_string, __frame_counts", "obd/elm327.py: ELM327.__read, ELM327.__send"]}
{"id": "C110", "title": "The car's list of mode 09 commands is heeded", "statement": "With a willing adapter and car (as in C77), after connecting a mode 09 command (VIN, calibration id, verification numbers and their message counts) is in supported_commands exactly if the car's answer to 0900 has its bit set; bit n of the four bytes stands for command n.", "quantifier": "every adapter in good order, every car, every protocol, every answer to 0900 (any framing, any other lines), any answers to the other listings", "why_tests_cant": "tests connect to one or two fixed transcripts; this ranges over all answers and protocols, and over everything that is asked before", "anchors": ["obd/commands.py: __mode9__, Commands.pid_getters", "obd/obd.py: OBD.__load_commands", "obd/decoders.py: pid"]}
{"id": "C111", "title": "The calibration verification numbers are returned whole", "statement": "CVN returns the verification number(s) the car sends after 4906, every byte of it in hexadecimal, without the count of numbers in front and the filling bytes behind.", "quantifier": "every answer of the car, every protocol and framing", "why_tests_cant": "tests decode a fixed answer; the number is arbitrary binary data, so any byte can stand at its ends", "anchors": ["obd/decoders.py: cvn, decode_encoded_string", "obd/OBDCommand.py: __mode9__ (CVN)"]}
{"id": "C112", "title": "The car's list of its on-board monitors is heeded", "statement": "With a willing adapter and car (as in C77) on one of the CAN protocols 6-9, after connecting a monitor command of mode 06 is in supported_commands exactly if the car's answer to the listing for it (0600, 0620, ...) has its bit set (0600: that alone; the later listings: if asked for, and an earlier one did not announce it already). On every other protocol the listings are not asked for and no monitor is supported.", "quantifier": "every adapter in good order, every car, every protocol, every answer to the listing (any length and framing), any answers to the other listings", "why_tests_cant": "tests connect to one or two fixed transcripts; this ranges over all answers and protocols, and over everything asked before and after", "anchors": ["obd/obd.py: __load_commands, test_cmd", "obd/commands.py: __mode6__, pid_getters", "obd/decoders.py: pid"]}
{"id": "C113", "title": "The car's lists of live data are heeded", "statement": "With a willing adapter and car (as in C77), on any protocol, after connecting a mode 01 command, and the command of mode 02 for the same data in the freeze frame, is in supported_commands exactly if the engine's answer to the listing for it (0100, 0120, 0140) has its bit set; if the listing is not asked for or answered NO DATA, none of its commands is.", "quantifier": "every adapter in good order, every car, every protocol, every four bytes of bits (any framing and other lines), any answers to the other listings", "why_tests_cant": "tests connect to one or two fixed transcripts; this ranges over all answers and protocols, and over everything asked before and after", "anchors": ["obd/obd.py: __load_commands, test_cmd", "obd/commands.py: __mode1__, __mode2__, pid_getters", "obd/decoders.py: pid"]}
