{
 "claims": [
  {
   "property": "C01",
   "status": "proved",
   "theorems": [
    "C01_can_multi_frame_round_trip"
   ],
   "note": ""
  },
  {
   "property": "C02",
   "status": "proved",
   "theorems": [
    "C02_can_single_frame_round_trip"
   ],
   "note": ""
  },
  {
   "property": "C03",
   "status": "proved",
   "theorems": [
    "C03_can_soundness",
    "C03_can_exact",
    "C03_understood_once"
   ],
   "note": "Full, and exact: which frames are put together is characterised for arbitrary lines (C03_can_exact)."
  },
  {
   "property": "C04",
   "status": "partial",
   "theorems": [
    "C04_exact_partial",
    "C04_first_frame_lost",
    "C04_consecutive_lost_partial",
    "C04_few_lost_partial",
    "C04_run_lost_partial",
    "C04_tail_lost",
    "C04_frame_repeated",
    "C04_16_lost_refuted",
    "C04_9_lost_refuted",
    "C04_tail_refuted"
   ],
   "note": "False of the code as stated: three refutations (16 frames in a row lost; 9 scattered frames lost; tail lost). Proved: for every combination of losses, repetitions and disorder exactly what is returned (C04_exact_partial); in particular nothing if the first frame is lost, if a frame before a received one is lost in tolerable arrival orders, if at most 8 are missing in order (9 refuted), or one run whose length is no multiple of 16; the exact result when the tail is lost."
  },
  {
   "property": "C05",
   "status": "partial",
   "theorems": [
    "C05_exact_partial",
    "C05_reordered_partial",
    "C05_refuted"
   ],
   "note": "False of the code at the wrap-around of the sequence number (refutation). Proved, exactly: within the window the payload is returned if the order is tolerable (SpecProto), and nothing otherwise, so wrong data never is."
  },
  {
   "property": "C06",
   "status": "proved",
   "theorems": [
    "C06_no_interference",
    "C06_own_lines_only"
   ],
   "note": ""
  },
  {
   "property": "C07",
   "status": "proved",
   "theorems": [
    "C07_text_passed_through"
   ],
   "note": ""
  },
  {
   "property": "C08",
   "status": "proved",
   "theorems": [
    "C08_malformed_ignored",
    "C08_malformed_or_frame"
   ],
   "note": ""
  },
  {
   "property": "C09",
   "status": "partial",
   "theorems": [
    "C09_can_exceptions",
    "C09_can_never_raises_partial",
    "C09_legacy_exceptions",
    "C09_unknown_never_raises",
    "C09_can_refuted",
    "C09_legacy_refuted"
   ],
   "note": "False of the code: IndexError for a CAN message whose payload is the single byte 43 and for legacy multi-line answers with a 2-byte line. Proved: the exact conditions, for CAN, legacy and unknown protocols."
  },
  {
   "property": "C10",
   "status": "proved",
   "theorems": [
    "C10_legacy_round_trip",
    "C10_legacy_single_line",
    "C10_legacy_gap_or_repetition",
    "C10_legacy_different_modes"
   ],
   "note": ""
  },
  {
   "property": "C11",
   "status": "proved",
   "theorems": [
    "C11_legacy_trouble_codes"
   ],
   "note": ""
  },
  {
   "property": "C12",
   "status": "proved",
   "theorems": [
    "C12_can_trouble_codes_cut"
   ],
   "note": ""
  },
  {
   "property": "C13",
   "status": "partial",
   "theorems": [
    "C13_silent",
    "C13_heeded",
    "C13_heeded_none",
    "C13_engine",
    "C13_construction_partial",
    "C13_responders",
    "C13_refuted"
   ],
   "note": "The choice of the engine is proved; 'construction always succeeds' is refuted (TypeError) and the exact condition is proved. C13_heeded: the commands of the engine's are given the messages of the ECU taken for the engine, and of the one with the engine's id if it was silent; of no other (C13_silent: the marks of ECUs that did not answer)."
  },
  {
   "property": "C14",
   "status": "proved",
   "theorems": [
    "C14_one_message_per_ecu"
   ],
   "note": ""
  },
  {
   "property": "C15",
   "status": "proved",
   "theorems": [
    "C15_decoder_input",
    "C15_input_unique",
    "C15_repeatable",
    "C15_noop",
    "C15_drop"
   ],
   "note": ""
  },
  {
   "property": "C16",
   "status": "proved",
   "theorems": [
    "C16_null",
    "C16_no_message"
   ],
   "note": ""
  },
  {
   "property": "C17",
   "status": "proved",
   "theorems": [
    "C17_equality",
    "C17_equivalence",
    "C17_hash",
    "C17_lookup"
   ],
   "note": ""
  },
  {
   "property": "C18",
   "status": "proved",
   "theorems": [
    "C18_mode",
    "C18_pid"
   ],
   "note": ""
  },
  {
   "property": "C19",
   "status": "partial",
   "theorems": [
    "C19_builtin_partial",
    "C19_air_status_exact",
    "C19_refuted"
   ],
   "note": "False of the code: AIR_STATUS raises IndexError for a single undefined bit (refutation). Proved for all other built-in commands on everything the protocol layer delivers, and the exact condition for AIR_STATUS."
  },
  {
   "property": "C20",
   "status": "proved",
   "theorems": [
    "C20_trouble_codes",
    "C20_code_text_injective",
    "C20_description_unique"
   ],
   "note": ""
  },
  {
   "property": "C21",
   "status": "partial",
   "theorems": [
    "C21_listed_codes_partial",
    "C21_description",
    "C21_refuted"
   ],
   "note": "False of the code for the 36 listed codes with A-F among their digits (returned in lower case, no description): refutation. Proved for all others; and for every byte pair the description is the one listed for the returned text."
  },
  {
   "property": "C22",
   "status": "partial",
   "theorems": [
    "C22_freeze_code_partial",
    "C22_refuted"
   ],
   "note": "False of the code: 00 00 decodes to P0000 (the bytearray never equals the tuple). Proved for all other pairs."
  },
  {
   "property": "C23",
   "status": "proved",
   "theorems": [
    "C23_unknown_id",
    "C23_linear",
    "C23_monitor_values",
    "C23_signed_ids",
    "C23_numeric_ids",
    "C23_standard",
    "C23_standard_monitor"
   ],
   "note": "For every numeric table id (all but 0x2E) and any 1 to 5 data bytes; error at most 2^-51 times (|raw*scale|+|offset|), scale and offset being the decimal numbers written in the source. Uses the axioms of Coq's Reals. C23_standard and C23_standard_monitor state the same against the standard's table, written down independently of the code's (SpecUas). C23_unknown_id: a units id that is not in the table gives KeyError, never a value."
  },
  {
   "property": "C24",
   "status": "partial",
   "theorems": [
    "C24_sensors",
    "C24_evap_pressure_partial",
    "C24_evap_pressure_low_byte",
    "C24_evap_pressure_refuted",
    "C24_fuel_rate_range_refuted"
   ],
   "note": "All 29 formula families proved with error bound and range, except two documented claims that are false of the code: EVAP_VAPOR_PRESSURE takes the low byte as signed (exact result proved, refutation), and FUEL_RATE exceeds its documented maximum. Uses the axioms of Coq's Reals."
  },
  {
   "property": "C25",
   "status": "proved",
   "theorems": [
    "C25_status",
    "C25_names"
   ],
   "note": ""
  },
  {
   "property": "C26",
   "status": "proved",
   "theorems": [
    "C26_o2_sensors",
    "C26_o2_sensors_alt",
    "C26_aux_input"
   ],
   "note": ""
  },
  {
   "property": "C27",
   "status": "partial",
   "theorems": [
    "C27_fuel_status",
    "C27_obd_compliance",
    "C27_fuel_type",
    "C27_air_status_partial",
    "C27_refuted",
    "C27_standard_compliance",
    "C27_standard_fuel",
    "C27_standard_fuel_status",
    "C27_standard_air_status_partial"
   ],
   "note": "Fuel status, compliance and fuel type proved in full; the secondary air status raises for four codes (refutation, exact condition proved). The C27_standard theorems state it against an independent table (SpecUas)."
  },
  {
   "property": "C28",
   "status": "proved",
   "theorems": [
    "C28_monitor_results",
    "C28_block_test",
    "C28_blocks",
    "C28_absent",
    "C28_listed"
   ],
   "note": ""
  },
  {
   "property": "C29",
   "status": "partial",
   "theorems": [
    "C29_verdict_partial",
    "C29_boolean_id",
    "C29_verdict_refuted"
   ],
   "note": "Proved for every units id but 0x2E, whose three values are only compared as zero/non-zero (exact rule proved, refutation of the general claim). Uses the axioms of Coq's Reals."
  },
  {
   "property": "C30",
   "status": "partial",
   "theorems": [
    "C30_calibration_reading_partial",
    "C30_calibration_cut_refuted",
    "C30_text_partial",
    "C30_removed",
    "C30_vin_refuted",
    "C30_calibration_refuted",
    "C30_vin_reading_partial"
   ],
   "note": "False of the code: the strip set also contains the characters 0 1 2 x and backslash, and CALIBRATION_ID is cut to 18 bytes (two refutations). Proved for texts not beginning or ending with these characters; what is removed is characterised in general. C30_vin_reading_partial: the same from the wire (CAN and older protocols). C30_calibration_reading_partial and C30_calibration_cut_refuted: the calibration id from the wire; on CAN the last character of every 16-character id is lost, whatever it is."
  },
  {
   "property": "C31",
   "status": "partial",
   "theorems": [
    "C31_engine_commands_partial",
    "C31_exact",
    "C31_refuted"
   ],
   "note": "False of the code for the ECU.ALL commands (refutation); proved for the engine commands, and exactly which commands answer null."
  },
  {
   "property": "C32",
   "status": "proved",
   "theorems": [
    "C32_elements",
    "C32_length",
    "C32_iteration",
    "C32_slices",
    "C32_counts",
    "C32_value"
   ],
   "note": ""
  },
  {
   "property": "C33",
   "status": "proved",
   "theorems": [
    "C33_bytes_to_int",
    "C33_decodes_encoding",
    "C33_encodes_decoding",
    "C33_bytes_to_hex",
    "C33_twos_comp"
   ],
   "note": ""
  },
  {
   "property": "C34",
   "status": "proved",
   "theorems": [
    "C34_answer",
    "C34_lines",
    "C34_lines_determined",
    "C34_connect",
    "C34_session"
   ],
   "note": ""
  },
  {
   "property": "C35",
   "status": "proved",
   "theorems": [
    "C35_lines",
    "C35_no_prompt",
    "C35_read"
   ],
   "note": ""
  },
  {
   "property": "C36",
   "status": "partial",
   "theorems": [
    "C36_query_partial",
    "C36_silent_afterwards",
    "C36_power",
    "C36_refuted"
   ],
   "note": "False of the code: if the port fails while the header is being changed for a command queried for the first time, query() raises TypeError (refutation). Proved: this is the only exception; in all cases the status becomes Not Connected, the port is closed, and nothing is ever sent again."
  },
  {
   "property": "C37",
   "status": "partial",
   "theorems": [
    "C37_constructor",
    "C37_car_connected_partial",
    "C37_obd_connected",
    "C37_not_connected",
    "C37_exceptions_partial",
    "C37_nan_refuted",
    "C37_baud_error_refuted",
    "C37_close_error_refuted"
   ],
   "note": "The constructor is characterised completely (dialogue, status, port, protocol). False of the code as stated: a voltage \"nan\" counts as at least 6 V, and I/O errors during baud detection or while saying goodbye escape as exceptions (three refutations)."
  },
  {
   "property": "C38",
   "status": "proved",
   "theorems": [
    "C38_selected",
    "C38_not_selected",
    "C38_refused"
   ],
   "note": ""
  },
  {
   "property": "C39",
   "status": "partial",
   "theorems": [
    "C39_asked_partial",
    "C39_no_data_refuted",
    "C39_silence_refuted"
   ],
   "note": "False of the code: NO DATA or silence in answer to 0100 also lead to Car Connected (two refutations). Proved: 0100 was sent and not answered UNABLE TO CONNECT."
  },
  {
   "property": "C40",
   "status": "partial",
   "theorems": [
    "C40_detection",
    "C40_first",
    "C40_error_refuted"
   ],
   "note": "Proved in full when the port raises no exception meanwhile; an exception escapes from the constructor with the port open (refutation)."
  },
  {
   "property": "C41",
   "status": "proved",
   "theorems": [
    "C41_wake_up",
    "C41_low_power",
    "C41_unconnected"
   ],
   "note": ""
  },
  {
   "property": "C42",
   "status": "proved",
   "theorems": [
    "C42_attempts"
   ],
   "note": ""
  },
  {
   "property": "C43",
   "status": "proved",
   "theorems": [
    "C43_unconnected_query",
    "C43_for_ever"
   ],
   "note": ""
  },
  {
   "property": "C44",
   "status": "proved",
   "theorems": [
    "C44_unsupported",
    "C44_only_allowed",
    "C44_allowed_sent"
   ],
   "note": ""
  },
  {
   "property": "C45",
   "status": "proved",
   "theorems": [
    "C45_unaltered"
   ],
   "note": ""
  },
  {
   "property": "C46",
   "status": "proved",
   "theorems": [
    "C46_in_full",
    "C46_fast",
    "C46_first_count",
    "C46_count_stays"
   ],
   "note": "C46_in_full: GET_DTC, CLEAR_DTC, GET_CURRENT_DTC, ELM_VERSION and ELM_VOLTAGE never get a limit."
  },
  {
   "property": "C47",
   "status": "partial",
   "theorems": [
    "C47_repeats_partial",
    "C47_engine_partial",
    "C47_exception_refuted",
    "C47_power_refuted",
    "C47_header_refuted"
   ],
   "note": "False of the code (three refutations): after a query that raised, after low_power(), and for two commands with equal requests and different headers, the adapter repeats another line. Proved: if all queries returned, only empty lines and lines for the adapter itself came between; with the engine header only and no power calls, only empty lines."
  },
  {
   "property": "C48",
   "status": "partial",
   "theorems": [
    "C48_header_partial",
    "C48_acknowledged",
    "C48_refuted"
   ],
   "note": "False of the code: the command is transmitted although the header change was refused (refutation). Proved: if every header change is answered OK, the adapter uses the right header and it is changed exactly when needed; and the object's idea of the header changes only after an acknowledgement."
  },
  {
   "property": "C49",
   "status": "proved",
   "theorems": [
    "C49_listings",
    "C49_supported",
    "C49_connected_first",
    "C49_kept"
   ],
   "note": ""
  },
  {
   "property": "C50",
   "status": "partial",
   "theorems": [
    "C50_choice_partial",
    "C50_first_adapter_partial",
    "C50_no_ports",
    "C50_gives_up_refuted",
    "C50_goes_on_refuted"
   ],
   "note": "False of the code, which compares status texts alphabetically (two refutations): the search stops at the first port that fails and goes on after one with a car, leaving it open. Proved: the exact rule."
  },
  {
   "property": "C51",
   "status": "partial",
   "theorems": [
    "C51_close_partial",
    "C51_raises_refuted",
    "C51_stays_connected_refuted"
   ],
   "note": "False of the code: close() raises if ATZ cannot be written, and stays connected if the answer to the header change makes the parser raise (two refutations). Proved whenever close() returns."
  },
  {
   "property": "C52",
   "status": "partial",
   "theorems": [
    "C52_exceptions_partial",
    "C52_builtin_only_partial",
    "C52_refuted"
   ],
   "note": "False of the code (refutation; also C09, C19, C36). Proved: the only exceptions of built-in commands are IndexError, for answers on which the parser or the secondary air status decoder raises, and the TypeError of C36, which cannot occur if only built-in commands are used."
  },
  {
   "property": "C53",
   "status": "partial",
   "theorems": [
    "C53_table_partial",
    "C53_stranger_refuted"
   ],
   "note": "False of the code for unwatch(c, f) with a callback f that is not subscribed to c: the whole command is dropped (refutation). Proved for every sequence of calls without such an unwatch, with the update threads moving in between."
  },
  {
   "property": "C54",
   "status": "proved",
   "theorems": [
    "C54_no_change_while_running",
    "C54_calls_return"
   ],
   "note": "One-step statement over all reachable states: with running true no step of any thread changes the table; the calls return at once."
  },
  {
   "property": "C55",
   "status": "proved",
   "theorems": [
    "C55_rounds",
    "C55_stored_first"
   ],
   "note": "For every execution after a start: the thread's whole log of queries and callback calls is a prefix of going round the table."
  },
  {
   "property": "C56",
   "status": "partial",
   "theorems": [
    "C56_one_thread",
    "C56_after_stop_partial",
    "C56_leftover_partial",
    "C56_alive_refuted"
   ],
   "note": "One thread in the loop, and no activity after stop()/paused()/close() until a start: proved. 'No thread is alive' is refuted: a thread that has seen a disconnection may still be about to return; it is shown to be the only kind of leftover."
  },
  {
   "property": "C57",
   "status": "proved",
   "theorems": [
    "C57_dies_only_by",
    "C57_table_still"
   ],
   "note": "Every death of an update thread is caused by an exception of the query or of a callback; the table stands still while a thread is in its loop on a connected object."
  },
  {
   "property": "C58",
   "status": "partial",
   "theorems": [
    "C58_restarts_partial",
    "C58_stays_partial",
    "C58_nested_refuted"
   ],
   "note": "False of the code for nested blocks (refutation). Proved: leaving the block entered last restarts the loop iff it was running on that entry (connected, something watched, loop not running)."
  },
  {
   "property": "C59",
   "status": "proved",
   "theorems": [
    "C59_query",
    "C59_unwatched",
    "C59_fresh",
    "C59_latest"
   ],
   "note": "Full: one step, no port activity; latest answer or the one before while the last is being stored; empty response for a fresh or unwatched command."
  },
  {
   "property": "C60",
   "status": "partial",
   "theorems": [
    "C60_raises_only_partial",
    "C60_comes_back_partial",
    "C60_race_refuted"
   ],
   "note": "False of the code: AttributeError in the race with a disconnection (refutation). Proved: nothing else is raised and only then; the call always comes back if the scheduler runs both threads."
  },
  {
   "property": "C61",
   "status": "proved",
   "theorems": [
    "C61_no_more_queries",
    "C61_thread_ends",
    "C61_running_false"
   ],
   "note": "No more queries, the thread ends, running is false. The last needs callbacks that do not raise and a user not in the middle of start()."
  },
  {
   "property": "C62",
   "status": "partial",
   "theorems": [
    "C62_running_partial",
    "C62_without_exceptions_partial",
    "C62_exception_refuted",
    "C62_no_restart_refuted"
   ],
   "note": "False of the code when a callback or query raises (two refutations: running stays true, and start() does nothing). Proved without exceptions, and that dead threads are the only exception."
  },
  {
   "property": "C63",
   "status": "proved",
   "theorems": [
    "C63_positions",
    "C63_unique",
    "C63_by_name",
    "C63_has_name",
    "C63_has_command",
    "C63_has_pid",
    "C63_by_pid",
    "C63_agree",
    "C63_by_mode",
    "C63_no_mode",
    "C63_no_name"
   ],
   "note": ""
  },
  {
   "property": "C64",
   "status": "proved",
   "theorems": [
    "C64_mode2_mirrors_mode1"
   ],
   "note": ""
  },
  {
   "property": "C65",
   "status": "partial",
   "theorems": [
    "C65_closed_form_partial",
    "C65_refuted"
   ],
   "note": "False of the code (refutation): the list starts one byte late. Proved: the closed form of what is reported."
  },
  {
   "property": "C66",
   "status": "proved",
   "theorems": [
    "C66_underscores",
    "C66_signed",
    "C66_signed_threshold",
    "C66_voltage",
    "C66_threshold",
    "C66_no_car_below_six",
    "C66_other_text"
   ],
   "note": "Full: value for any whole part up to 250 digits (beyond that Python gives inf) and any fraction; the threshold for up to 15 digits after the point. Uses the axioms of Coq's Reals. C66_signed, C66_signed_threshold: the same for numbers printed with a sign."
  },
  {
   "property": "C67",
   "status": "proved",
   "theorems": [
    "C67_payload",
    "C67_sensor",
    "C67_engine",
    "C67_not_engine",
    "C67_answered"
   ],
   "note": ""
  },
  {
   "property": "C68",
   "status": "proved",
   "theorems": [
    "C68_trouble_codes"
   ],
   "note": "Legacy GET_CURRENT_DTC is excluded here because it is wrong in the code: C65."
  },
  {
   "property": "C69",
   "status": "proved",
   "theorems": [
    "C69_fresh",
    "C69_first_ecu"
   ],
   "note": ""
  },
  {
   "property": "C70",
   "status": "partial",
   "theorems": [
    "C70_no_answer",
    "C70_refuted",
    "C70_echo_ignored_partial"
   ],
   "note": "The first half is false of the code: nothing compares the echo of mode and PID with the request (C70_refuted); C70_echo_ignored_partial: in mode 01 the echo never matters. C70_no_answer is the second half."
  },
  {
   "property": "C71",
   "status": "partial",
   "theorems": [
    "C71_closed_form_partial",
    "C71_refuted"
   ],
   "note": "False of the code: the frame number is decoded as the first data byte and the last data byte is cut (C71_refuted); C71_closed_form_partial says what every freeze frame sensor returns instead."
  },
  {
   "property": "C72",
   "status": "partial",
   "theorems": [
    "C72_steady",
    "C72_gone",
    "C72_known",
    "C72_raises_refuted",
    "C72_accessors_partial",
    "C72_is_connected"
   ],
   "note": "All but the last clause proved. protocol_id() and protocol_name() raise AttributeError after a close() that failed (C72_raises_refuted) and only then (C72_accessors_partial)."
  },
  {
   "property": "C73",
   "status": "proved",
   "theorems": [
    "C73_as_if_silent",
    "C73_continues_as_if_silent",
    "C73_rounds",
    "C73_query",
    "C73_called_with",
    "C73_query_own",
    "C73_no_exception",
    "C73_no_effect"
   ],
   "note": "Full, in the model Async2 of callbacks as arbitrary sequences of API calls, return or raise, interleaved step by step."
  },
  {
   "property": "C74",
   "status": "partial",
   "theorems": [
    "C74_ignored",
    "C74_running_in_callback",
    "C74_while_stopping_refuted"
   ],
   "note": "True while running (C74_ignored), which holds in every callback unless the user's stop() is waiting (C74_running_in_callback); false then: the call takes effect and the update thread dies with RuntimeError (C74_while_stopping_refuted)."
  },
  {
   "property": "C75",
   "status": "partial",
   "theorems": [
    "C75_raises",
    "C75_comes_back",
    "C75_after",
    "C75_stays_stopped",
    "C75_bounded",
    "C75_no_restart_refuted"
   ],
   "note": "All but the last clause proved for arbitrary callbacks; start() then does nothing until the user's own stop() (C75_no_restart_refuted)."
  },
  {
   "property": "C76",
   "status": "proved",
   "theorems": [
    "C76_found",
    "C76_error",
    "C76_candidates",
    "C76_constructor"
   ],
   "note": "Full, in the model Scan of glob, try_port and scan_serial; a device that vanishes between glob and open is a probe result."
  },
  {
   "property": "C77",
   "status": "proved",
   "theorems": [
    "C77_connects",
    "C77_then_queries"
   ],
   "note": "Full; SpecConnect spells out what a willing adapter and car are. Connecting with several ports found by the scan is C50 and C76."
  },
  {
   "property": "C78",
   "status": "partial",
   "theorems": [
    "C78_named_port_partial",
    "C78_count_partial",
    "C78_closed_partial",
    "C78_async_partial",
    "C78_scan_refuted",
    "C78_constructor_refuted"
   ],
   "note": "Exact for objects made with a port name, synchronous and Async, under any schedule and callbacks (C78_named_port_partial, C78_closed_partial, C78_async_partial). With a scan every port tried before the last stays open for good (C78_count_partial gives the exact number), and a constructor that raises keeps its port: C78_scan_refuted, C78_constructor_refuted."
  },
  {
   "property": "C79",
   "status": "proved",
   "theorems": [
    "C79_exclusive",
    "C79_query_alone",
    "C79_close_alone"
   ],
   "note": "Full, in the interleaving model of Async and callbacks (user's thread, update threads, API calls in callbacks)."
  },
  {
   "property": "C80",
   "status": "proved",
   "theorems": [
    "C80_keeps_asking",
    "C80_every_command",
    "C80_ends_only",
    "C80_with_callbacks",
    "C80_callbacks_every_command"
   ],
   "note": "Full for callbacks that do not call the API, or only make calls that do not stop the loop (C80_with_callbacks, C80_callbacks_every_command; stop() and close() in a callback: C75); the number of steps per round is existential."
  },
  {
   "property": "C81",
   "status": "proved",
   "theorems": [
    "C81_listing",
    "C81_status",
    "C81_o2_sensors",
    "C81_o2_sensors_alt",
    "C81_aux_input",
    "C81_fuel_status",
    "C81_obd_compliance",
    "C81_fuel_type",
    "C81_freeze_dtc",
    "C81_monitor"
   ],
   "note": "Full."
  },
  {
   "property": "C82",
   "status": "proved",
   "theorems": [
    "C82_supported",
    "C82_as_forced",
    "C82_unmarked",
    "C82_mode6",
    "C82_only_the_set",
    "C82_a_set"
   ],
   "note": "Full."
  },
  {
   "property": "C83",
   "status": "proved",
   "theorems": [
    "C83_as_one_step",
    "C83_every_run",
    "C83_one_at_a_time",
    "C83_query",
    "C83_close"
   ],
   "note": "Full, for programs whose user thread makes no power calls (those are C84). Refinement both ways between Fine.v (one step per port or attribute access) and Async.v (one step per query/close)."
  },
  {
   "property": "C84",
   "status": "partial",
   "theorems": [
    "C84_power_partial",
    "C84_query_partial",
    "C84_as_one_step_partial",
    "C84_one_at_a_time_partial",
    "C84_running_refuted",
    "C84_taken_refuted"
   ],
   "note": "False of the code while the loop is running: low_power()/normal_power() are inherited from OBD without stopping the loop, so their port accesses mix with a query's (C84_running_refuted, C84_taken_refuted). Proved for calls made while no update loop is running (the _partial theorems)."
  },
  {
   "property": "C85",
   "status": "partial",
   "theorems": [
    "C85_changes_nothing",
    "C85_returns",
    "C85_moment_partial",
    "C85_port_partial",
    "C85_before_or_after",
    "C85_port_refuted"
   ],
   "note": "False only of port_name(): it reads the port twice, and if the loop's query loses the port in between it raises AttributeError (C85_port_refuted; C85_port_partial says that is the only way). For the other calls the claim holds in full (C85_moment_partial is partial because it leaves port_name() out)."
  },
  {
   "property": "C86",
   "status": "partial",
   "theorems": [
    "C86_commands_partial",
    "C86_no_others",
    "C86_types_partial",
    "C86_freeze_frame",
    "C86_freeze_frame_there",
    "C86_freeze_frame_same",
    "C86_missing_refuted",
    "C86_string_refuted"
   ],
   "note": "False of five documented mode 09 commands, which do not exist (C86_missing_refuted), and of VIN and CALIBRATION_ID, documented as strings but always bytearrays (C86_string_refuted). Proved for every other row and every wire (C86_commands_partial, C86_types_partial, C86_freeze_frame, C86_no_others). The descriptions of ELM_VERSION and GET_DTC are worded differently."
  },
  {
   "property": "C87",
   "status": "proved",
   "theorems": [
    "C87_reading",
    "C87_untouched",
    "C87_settings",
    "C87_stays"
   ],
   "note": "For fast=False and a given port. The adapter follows SpecAdapter (data sheet of the ELM327 as far as the library uses it, any car behind it; reads only time out when nothing is left to be read). The header is the command's, or the adapter's initial one for all ECUs while no command with another header than the engine's was sent (C88). Low power mode, and histories with close(), are not in these sessions."
  },
  {
   "property": "C88",
   "status": "partial",
   "theorems": [
    "C88_broadcast_partial",
    "C88_addressed_partial",
    "C88_history_refuted"
   ],
   "note": "False: until a command with another header is queried, requests go to all ECUs (the adapter's initial header); afterwards commands with the default header are sent to the engine alone, so for example GET_DTC no longer reports the other ECUs' codes (C88_history_refuted: a car, two sessions, same state of the car). Proved for every car and history: to all ECUs before the first such command (C88_broadcast_partial), to the command's own header after it (C88_addressed_partial)."
  },
  {
   "property": "C89",
   "status": "partial",
   "theorems": [
    "C89_fast_partial",
    "C89_other_ecu_refuted",
    "C89_ten_frames_refuted"
   ],
   "note": "False: the recorded number of frames is appended as a limit to later requests; if another ECU answers first later, the engine's answer is lost (C89_other_ecu_refuted); ten or more frames make two digits, which is another request (0904 becomes 090410, C89_ten_frames_refuted). Proved for every car: with a recorded count of one digit the request is the same and the response is made of that many lines of the car's answer, without a recorded count of all of them (C89_fast_partial); for queries of commands with the engine's header that returned (a repeated line after a failed query: C47)."
  },
  {
   "property": "C90",
   "status": "proved",
   "theorems": [
    "C90_requests",
    "C90_responses",
    "C90_stays",
    "C90_loop_ends",
    "C90_with_callbacks"
   ],
   "note": "Proved for every car and every schedule: the sequence of car states since the object was made is exactly the one produced by the update threads' queries in order (served), callbacks and query() hand out only those results, the connection survives, and the loop ends only when told to or by an exception. Scope: fast=False, an adapter that follows SpecAdapter, watched commands the adapter understands (proper), callbacks that do not use the API themselves, or make harmless calls only (C90_with_callbacks, for all runs of Async2.v with such callbacks; the results of their own query() calls are covered too)."
  },
  {
   "property": "C91",
   "status": "partial",
   "theorems": [
    "C91_reading_partial",
    "C91_asleep_partial",
    "C91_power_partial",
    "C91_normal_repeats_refuted",
    "C91_low_twice_refuted",
    "C91_normal_twice_refuted",
    "C91_restart_refuted",
    "C91_fast_refuted"
   ],
   "note": "False: normal_power() while the adapter is awake sends a blank line, which repeats the last request, so for example trouble codes are cleared once more (C91_normal_repeats_refuted); low_power() twice or normal_power() twice put object and adapter out of step and the next reading is lost (C91_low_twice_refuted, C91_normal_twice_refuted); so is the reading after a sleep with an adapter that starts anew when it wakes up (C91_restart_refuted), and with fast=True the second reading of a command (C91_fast_refuted). Proved for fast=False, every car, every adapter that keeps its settings, and every history in which low_power() and normal_power() are called in turn."
  },
  {
   "property": "C92",
   "status": "partial",
   "theorems": [
    "C92_wakes_partial",
    "C92_repeats_refuted"
   ],
   "note": "The second half is false: an adapter that is awake takes the blank line as a repetition of its last line (C92_repeats_refuted: trouble codes are cleared by making a connection). Proved with fast=False: an adapter that is asleep, or awake with another last line than ATLP, ends up awake and set up (C92_wakes_partial)."
  },
  {
   "property": "C93",
   "status": "proved",
   "theorems": [
    "C93_eval_repr",
    "C93_equal",
    "C93_distinct"
   ],
   "note": ""
  },
  {
   "property": "C94",
   "status": "partial",
   "theorems": [
    "C94_shows",
    "C94_tells_partial",
    "C94_tells_refuted",
    "C94_builtin",
    "C94_print_commands",
    "C94_builtin_lines"
   ],
   "note": "False in general: the header and the request are shown without a separator, so a command sent to 7E0 and one with another header can be shown alike (C94_tells_refuted). Proved for commands that both have the default header or both another one of the same length, and for all built-in commands."
  },
  {
   "property": "C95",
   "status": "proved",
   "theorems": [
    "C95_parse",
    "C95_response",
    "C95_received",
    "C95_raw_string",
    "C95_hex"
   ],
   "note": ""
  },
  {
   "property": "C96",
   "status": "partial",
   "theorems": [
    "C96_one_request",
    "C96_own_answer_partial",
    "C96_stays",
    "C96_refuted"
   ],
   "note": "False in general (C96_refuted): output that arrives between flushInput and the next line's own answer is taken for the answer to the next query (SPEED's answer read as RPM's). Proved: the request sent is always the right one and the connection is kept, whatever the delays (C96_one_request, C96_stays); the response is made of a stretch of the car's answer to this request - if what is read is plain ASCII: of its first lines and perhaps a part of the next (stretch_cut) - as long as what comes too late comes before the next line is written (C96_own_answer_partial). For fast=False and the engine's header; other headers in C98."
  },
  {
   "property": "C97",
   "status": "partial",
   "theorems": [
    "C97_whole_lines_partial",
    "C97_cut_partial",
    "C97_session_partial",
    "C97_mid_line_refuted",
    "C97_lines_refuted"
   ],
   "note": "False in general: an answer cut within a line is decoded with zeros for the missing bytes (C97_mid_line_refuted), a CAN message of which the last frames are missing counts as complete (C97_lines_refuted). Proved: if only whole lines are lost and the ECU a command heeds answers in one line, the value is right or there is none (C97_whole_lines_partial); if a line may be cut as well, the value is none or the one the command makes of the first j >= 1 bytes of the complete payload (C97_cut_partial; for a session with a slow adapter C97_session_partial)."
  },
  {
   "property": "C98",
   "status": "partial",
   "theorems": [
    "C98_acknowledged_partial",
    "C98_refuted"
   ],
   "note": "False in general (C98_refuted): if the acknowledgement of a header comes late, the object goes on believing the old header is in force, and requests of commands with that header go to the wrong ECU. Proved for all sessions in which every header that is set is acknowledged in time, however late everything else is (C98_acknowledged_partial). For fast=False."
  },
  {
   "property": "C99",
   "status": "partial",
   "theorems": [
    "C99_report",
    "C99_tells_partial",
    "C99_unknown_refuted",
    "C99_status",
    "C99_unit"
   ],
   "note": "False only in that the lines of the manufacturer's own tests all say 'Unknown', so answers about different tests are printed alike (C99_unknown_refuted). Proved: number, order and content of the lines, len() (C99_report); the lines of different tests of the standard, or with different verdicts, differ (C99_tells_partial); status tests (C99_status) and unit (C99_unit). str() of a pint quantity or unit is a parameter."
  },
  {
   "property": "C100",
   "status": "proved",
   "theorems": [
    "C100_with_callbacks",
    "C100_requests",
    "C100_line",
    "C100_responses",
    "C100_stays",
    "C100_loop_ends"
   ],
   "note": "Proved for every car and every schedule (C100_requests: served_fast, the exact lines; C100_line: what these lines are to the adapter; C100_responses, C100_stays, C100_loop_ends). Scope: an adapter that follows SpecAdapter, watched commands it understands with the engine's header, callbacks that do not use the API themselves or make harmless calls only (C100_with_callbacks); after a query that raised, a blank line may repeat another request (C47). That the limit loses answers and that two digits make another request is C89."
  },
  {
   "property": "C101",
   "status": "proved",
   "theorems": [
    "C101_reading",
    "C101_sensor",
    "C101_codes",
    "C101_reading_fast",
    "C101_sensor_fast",
    "C101_sensor_with_callbacks"
   ],
   "note": "C101_reading, C101_sensor, C101_codes for fast=False; C101_reading_fast, C101_sensor_fast for fast=True (without the condition on the number of lines: C89); C101_sensor_with_callbacks for callbacks that make harmless calls. Scope as in C90 and C100. The sensors are those of SpecSensors (C24, C67)."
  },
  {
   "property": "C102",
   "status": "proved",
   "theorems": [
    "C102_sensor",
    "C102_sensor_fast",
    "C102_codes"
   ],
   "note": "C102_sensor and C102_codes for fast=False, C102_sensor_fast for fast=True (without the condition on the number of lines: C89); with truthful cars, on top of C87/C89 and C67/C68; examples with a car whose measurement changes between two queries."
  },
  {
   "property": "C103",
   "status": "proved",
   "theorems": [
    "C103_requests",
    "C103_responses",
    "C103_stays",
    "C103_loop_ends"
   ],
   "note": "SpecAsyncSlow, on top of C96 (SlowThms) and the invariant of AsyncCar. C103_requests for any delay, with the stretch of the own answer if output that comes too late is thrown away (b = true; without that C96 refutes it); C103_responses, C103_stays, C103_loop_ends. close() writes only a reset, as the header is the engine's. Example: all reads of the first query time out."
  },
  {
   "property": "C104",
   "status": "proved",
   "theorems": [
    "C104_pace",
    "C104_how_often",
    "C104_between_rounds",
    "C104_no_delay",
    "C104_untimed",
    "C104_every_schedule"
   ],
   "note": "Timed.v adds a clock to Async.v: a scheduler's choice says how much time passes before the step, a thread that called time.sleep(x) makes no step until x has passed. Times are whole microseconds, delay_cmds >= 0 (time.sleep raises ValueError otherwise), steps take place at the instant of their end. C104_untimed and C104_every_schedule: erasing the times gives exactly the states of Async.v, so the other Async properties hold of the timed object."
  },
  {
   "property": "C105",
   "status": "proved",
   "theorems": [
    "C105_obd",
    "C105_config",
    "C105_one_meaning",
    "C105_async_as_obd"
   ],
   "note": "Args.v models Python's binding of arguments and what the constructors pass on; C105_config ties it to the config the other theorems are about."
  },
  {
   "property": "C106",
   "status": "partial",
   "theorems": [
    "C106_async_partial",
    "C106_async_refuted",
    "C106_query_partial",
    "C106_watch_partial",
    "C106_unwatch_partial",
    "C106_query_refuted",
    "C106_command_partial",
    "C106_command_error",
    "C106_command_refuted"
   ],
   "note": "False of the code as documented: the documented signature of Async() leaves out start_low_power, so a delay_cmds in the documented seventh place is taken for start_low_power (C106_async_refuted); the parameter documented as command is called cmd or c, so query(command=...), watch(command=...), unwatch(command=...) raise TypeError (C106_query_refuted), and the one documented as bytes is called _bytes (C106_command_refuted). The _partial theorems are everything but these: at most six positional arguments for Async(), the command by position for the calls, four positional arguments for OBDCommand()."
  },
  {
   "property": "C107",
   "status": "partial",
   "theorems": [
    "C107_changes_nothing",
    "C107_returns",
    "C107_moment_partial",
    "C107_no_unwatch_partial",
    "C107_running_partial",
    "C107_refuted"
   ],
   "note": "False in one respect: query() looks twice at the table, and if unwatch() or unwatch_all() takes the command out in between it raises KeyError (C107_refuted). Proved: that is the only exception (C107_moment_partial), and it cannot occur in a program that does not unwatch (C107_no_unwatch_partial) or in a call during which the loop is running (C107_running_partial)."
  },
  {
   "property": "C108",
   "status": "proved",
   "theorems": [
    "C108_format",
    "C108_can",
    "C108_older",
    "C108_none"
   ],
   "note": "Added after an edit of a protocol's class (h29) had survived: the round trip theorems C01-C14 take the family of the protocol as a hypothesis; C108_format supplies it for every session."
  },
  {
   "property": "C109",
   "status": "partial",
   "theorems": [
    "C109_request_partial",
    "C109_answer_partial",
    "C109_recorded_partial",
    "C109_refuted"
   ],
   "note": "The last half is false (C109_refuted): the number of frames of the first answer, even if a time-out cut it, is on record for the life of the object and limits all later answers, so RPM has no value any more although nothing comes late. Proved for commands with the engine's header and queries that returned: the request is the command's own (counts of at most one digit; two digits: C89), the response is made of a stretch of its own answer, of its first n lines if n is on record, and n is the number of frames of what was read the first time."
  },
  {
   "property": "C110",
   "status": "partial",
   "theorems": [
    "C110_found_partial",
    "C110_can_partial",
    "C110_older_refuted"
   ],
   "note": "False of the code on the protocols 1-5: there the standard has a message count (01) before the four bytes of bits, which the code takes for the first eight bits, so whatever the car lists none of the commands is supported (C110_older_refuted, for every such car; example with ISO 9141-2). Proved for the answer the standard has on CAN (C110_can_partial), and for any four or five bytes behind 49 00 (C110_found_partial). C81_listing: the value of a listing is the bits on the wire."
  },
  {
   "property": "C111",
   "status": "partial",
   "theorems": [
    "C111_removed_partial",
    "C111_cvn_partial",
    "C111_zeros_refuted",
    "C111_two_refuted"
   ],
   "note": "False of the code: the number is binary but is stripped like text, so zero bytes (and 01, 02, 30, 31, 32, 78, 5C, white space) at its ends vanish and different numbers look the same (C111_zeros_refuted); of two numbers on CAN the last byte is never shown, whatever it is (C111_two_refuted). Proved otherwise: what is shown is a stretch of the bytes and only such bytes are missing at its ends (C111_removed_partial), and a number of up to 8 bytes with the count that has none at its ends is shown whole, from the wire (C111_cvn_partial)."
  },
  {
   "property": "C112",
   "status": "proved",
   "theorems": [
    "C112_listing",
    "C112_first",
    "C112_not_can"
   ],
   "note": "Proved in full: C112_listing for each of the six listings of mode 06, C112_first for 0600, C112_not_can for the other protocols. The hypotheses sup1 and sup2 name the supported commands before and after the listing (SpecConnect.car_lists asks for the later listings accordingly). Examples: a CAN car with two monitors, and one with ISO 9141-2."
  },
  {
   "property": "C113",
   "status": "proved",
   "theorems": [
    "C113_listing",
    "C113_silent"
   ],
   "note": "Proved in full: C113_listing for the three listings of mode 01, C113_silent for those not asked for or answered by text. sup1 and sup2 name the supported commands before and after the listing (SpecConnect.car_lists asks for the later listings accordingly). Example: a CAN car that lists the speed alone."
  }
 ]
}