(* Generated by tools/assumptions.py: what the property theorems rest on. *)
From Verif Require Properties_Adapter Properties_Args Properties_Async Properties_AsyncCar Properties_AsyncCar2 Properties_AsyncFast Properties_AsyncSlow Properties_Callbacks Properties_Commands Properties_Connect Properties_Cvn Properties_Dashboard Properties_Dashboard2 Properties_Decoders Properties_Docs Properties_Ecus Properties_Elm Properties_EndToEnd Properties_Fine Properties_Formats Properties_Index Properties_Limits Properties_Listing Properties_Listing1 Properties_Listing6 Properties_Live Properties_Live2 Properties_Look Properties_Mark Properties_More Properties_Numbers Properties_Obd Properties_Ports Properties_Print Properties_Protocol Properties_Raw Properties_Readers Properties_Readings Properties_Repr Properties_Scan Properties_Signed Properties_Sleep Properties_Slow Properties_SlowFast Properties_Timed Properties_Uas Properties_Utils Properties_Voltage.
(* no axioms *)
Definition without_axioms :=
  (@Properties_Adapter.C87_reading,
   @Properties_Adapter.C87_untouched,
   @Properties_Adapter.C87_settings,
   @Properties_Adapter.C87_stays,
   @Properties_Adapter.C88_broadcast_partial,
   @Properties_Adapter.C88_addressed_partial,
   @Properties_Adapter.C89_fast_partial,
   @Properties_Adapter.C88_history_refuted,
   @Properties_Adapter.C89_other_ecu_refuted,
   @Properties_Adapter.C89_ten_frames_refuted,
   @Properties_Args.C105_obd,
   @Properties_Args.C105_config,
   @Properties_Args.C105_one_meaning,
   @Properties_Args.C106_async_partial,
   @Properties_Args.C105_async_as_obd,
   @Properties_Args.C106_async_refuted,
   @Properties_Args.C106_query_partial,
   @Properties_Args.C106_watch_partial,
   @Properties_Args.C106_unwatch_partial,
   @Properties_Args.C106_query_refuted,
   @Properties_Args.C106_command_partial,
   @Properties_Args.C106_command_error,
   @Properties_Args.C106_command_refuted,
   @Properties_Async.C53_table_partial,
   @Properties_Async.C53_stranger_refuted,
   @Properties_Async.C54_no_change_while_running,
   @Properties_Async.C54_calls_return,
   @Properties_Async.C55_rounds,
   @Properties_Async.C55_stored_first,
   @Properties_Async.C56_one_thread,
   @Properties_Async.C56_after_stop_partial,
   @Properties_Async.C56_leftover_partial,
   @Properties_Async.C56_alive_refuted,
   @Properties_Async.C57_dies_only_by,
   @Properties_Async.C57_table_still,
   @Properties_Async.C58_restarts_partial,
   @Properties_Async.C58_stays_partial,
   @Properties_Async.C58_nested_refuted,
   @Properties_Async.C59_query,
   @Properties_Async.C59_unwatched,
   @Properties_Async.C59_fresh,
   @Properties_Async.C59_latest,
   @Properties_Async.C60_raises_only_partial,
   @Properties_Async.C60_comes_back_partial,
   @Properties_Async.C60_race_refuted,
   @Properties_Async.C61_no_more_queries,
   @Properties_Async.C61_thread_ends,
   @Properties_Async.C61_running_false,
   @Properties_Async.C62_running_partial,
   @Properties_Async.C62_without_exceptions_partial,
   @Properties_Async.C62_exception_refuted,
   @Properties_Async.C62_no_restart_refuted,
   @Properties_AsyncCar.C90_requests,
   @Properties_AsyncCar.C90_responses,
   @Properties_AsyncCar.C90_stays,
   @Properties_AsyncCar.C90_loop_ends,
   @Properties_AsyncCar2.C90_with_callbacks,
   @Properties_AsyncCar2.C100_with_callbacks,
   @Properties_AsyncFast.C100_requests,
   @Properties_AsyncFast.C100_line,
   @Properties_AsyncFast.C100_responses,
   @Properties_AsyncFast.C100_stays,
   @Properties_AsyncFast.C100_loop_ends,
   @Properties_AsyncSlow.C103_requests,
   @Properties_AsyncSlow.C103_responses,
   @Properties_AsyncSlow.C103_stays,
   @Properties_AsyncSlow.C103_loop_ends,
   @Properties_Callbacks.C73_as_if_silent,
   @Properties_Callbacks.C73_continues_as_if_silent,
   @Properties_Callbacks.C73_rounds,
   @Properties_Callbacks.C73_query,
   @Properties_Callbacks.C73_called_with,
   @Properties_Callbacks.C73_query_own,
   @Properties_Callbacks.C73_no_exception,
   @Properties_Callbacks.C73_no_effect,
   @Properties_Callbacks.C74_ignored,
   @Properties_Callbacks.C74_running_in_callback,
   @Properties_Callbacks.C74_while_stopping_refuted,
   @Properties_Callbacks.C75_raises,
   @Properties_Callbacks.C75_comes_back,
   @Properties_Callbacks.C75_after,
   @Properties_Callbacks.C75_stays_stopped,
   @Properties_Callbacks.C75_bounded,
   @Properties_Callbacks.C75_no_restart_refuted,
   @Properties_Commands.C15_decoder_input,
   @Properties_Commands.C15_input_unique,
   @Properties_Commands.C15_repeatable,
   @Properties_Commands.C16_null,
   @Properties_Commands.C16_no_message,
   @Properties_Commands.C17_equality,
   @Properties_Commands.C17_equivalence,
   @Properties_Commands.C17_hash,
   @Properties_Commands.C17_lookup,
   @Properties_Commands.C18_mode,
   @Properties_Commands.C18_pid,
   @Properties_Commands.C63_positions,
   @Properties_Commands.C63_unique,
   @Properties_Commands.C63_by_name,
   @Properties_Commands.C63_has_name,
   @Properties_Commands.C63_has_command,
   @Properties_Commands.C63_has_pid,
   @Properties_Commands.C63_by_pid,
   @Properties_Commands.C63_agree,
   @Properties_Commands.C64_mode2_mirrors_mode1,
   @Properties_Connect.C77_connects,
   @Properties_Connect.C77_then_queries,
   @Properties_Cvn.C111_removed_partial,
   @Properties_Cvn.C111_cvn_partial,
   @Properties_Cvn.C111_zeros_refuted,
   @Properties_Cvn.C111_two_refuted,
   @Properties_Cvn.C30_calibration_reading_partial,
   @Properties_Cvn.C30_calibration_cut_refuted,
   @Properties_Dashboard.C101_reading,
   @Properties_Dashboard.C101_codes,
   @Properties_Dashboard.C101_reading_fast,
   @Properties_Dashboard2.C102_codes,
   @Properties_Decoders.C19_builtin_partial,
   @Properties_Decoders.C19_air_status_exact,
   @Properties_Decoders.C19_refuted,
   @Properties_Decoders.C20_trouble_codes,
   @Properties_Decoders.C20_code_text_injective,
   @Properties_Decoders.C20_description_unique,
   @Properties_Decoders.C21_listed_codes_partial,
   @Properties_Decoders.C21_description,
   @Properties_Decoders.C21_refuted,
   @Properties_Decoders.C22_freeze_code_partial,
   @Properties_Decoders.C22_refuted,
   @Properties_Decoders.C25_status,
   @Properties_Decoders.C25_names,
   @Properties_Decoders.C26_o2_sensors,
   @Properties_Decoders.C26_o2_sensors_alt,
   @Properties_Decoders.C26_aux_input,
   @Properties_Decoders.C27_fuel_status,
   @Properties_Decoders.C27_obd_compliance,
   @Properties_Decoders.C27_fuel_type,
   @Properties_Decoders.C27_air_status_partial,
   @Properties_Decoders.C27_refuted,
   @Properties_Decoders.C28_monitor_results,
   @Properties_Decoders.C28_block_test,
   @Properties_Decoders.C28_blocks,
   @Properties_Decoders.C30_text_partial,
   @Properties_Decoders.C30_removed,
   @Properties_Decoders.C30_vin_refuted,
   @Properties_Decoders.C30_calibration_refuted,
   @Properties_Decoders.C31_engine_commands_partial,
   @Properties_Decoders.C31_exact,
   @Properties_Decoders.C31_refuted,
   @Properties_Decoders.C65_closed_form_partial,
   @Properties_Decoders.C65_refuted,
   @Properties_Docs.C86_commands_partial,
   @Properties_Docs.C86_no_others,
   @Properties_Docs.C86_types_partial,
   @Properties_Docs.C86_freeze_frame,
   @Properties_Docs.C86_freeze_frame_there,
   @Properties_Docs.C86_freeze_frame_same,
   @Properties_Docs.C86_missing_refuted,
   @Properties_Docs.C86_string_refuted,
   @Properties_Ecus.C13_silent,
   @Properties_Ecus.C13_heeded,
   @Properties_Ecus.C13_heeded_none,
   @Properties_Elm.C34_answer,
   @Properties_Elm.C34_lines,
   @Properties_Elm.C34_lines_determined,
   @Properties_Elm.C34_connect,
   @Properties_Elm.C34_session,
   @Properties_Elm.C35_lines,
   @Properties_Elm.C35_no_prompt,
   @Properties_Elm.C35_read,
   @Properties_Elm.C37_constructor,
   @Properties_Elm.C37_car_connected_partial,
   @Properties_Elm.C37_obd_connected,
   @Properties_Elm.C37_not_connected,
   @Properties_Elm.C37_exceptions_partial,
   @Properties_Elm.C37_nan_refuted,
   @Properties_Elm.C37_baud_error_refuted,
   @Properties_Elm.C37_close_error_refuted,
   @Properties_Elm.C38_selected,
   @Properties_Elm.C38_not_selected,
   @Properties_Elm.C38_refused,
   @Properties_Elm.C39_asked_partial,
   @Properties_Elm.C39_no_data_refuted,
   @Properties_Elm.C39_silence_refuted,
   @Properties_Elm.C40_detection,
   @Properties_Elm.C40_first,
   @Properties_Elm.C40_error_refuted,
   @Properties_Elm.C42_attempts,
   @Properties_EndToEnd.C67_payload,
   @Properties_EndToEnd.C67_engine,
   @Properties_EndToEnd.C67_not_engine,
   @Properties_EndToEnd.C67_answered,
   @Properties_EndToEnd.C68_trouble_codes,
   @Properties_EndToEnd.C69_fresh,
   @Properties_EndToEnd.C69_first_ecu,
   @Properties_EndToEnd.C70_no_answer,
   @Properties_EndToEnd.C70_refuted,
   @Properties_EndToEnd.C70_echo_ignored_partial,
   @Properties_EndToEnd.C71_refuted,
   @Properties_EndToEnd.C72_steady,
   @Properties_EndToEnd.C72_gone,
   @Properties_EndToEnd.C72_known,
   @Properties_EndToEnd.C72_raises_refuted,
   @Properties_EndToEnd.C72_accessors_partial,
   @Properties_Fine.C83_as_one_step,
   @Properties_Fine.C83_every_run,
   @Properties_Fine.C83_one_at_a_time,
   @Properties_Fine.C83_query,
   @Properties_Fine.C83_close,
   @Properties_Fine.C84_power_partial,
   @Properties_Fine.C84_query_partial,
   @Properties_Fine.C84_as_one_step_partial,
   @Properties_Fine.C84_one_at_a_time_partial,
   @Properties_Fine.C84_running_refuted,
   @Properties_Fine.C84_taken_refuted,
   @Properties_Formats.C108_format,
   @Properties_Formats.C108_can,
   @Properties_Formats.C108_older,
   @Properties_Formats.C108_none,
   @Properties_Index.C63_by_mode,
   @Properties_Index.C63_no_mode,
   @Properties_Index.C63_no_name,
   @Properties_Index.C66_underscores,
   @Properties_Index.C72_is_connected,
   @Properties_Limits.C46_in_full,
   @Properties_Listing.C81_listing,
   @Properties_Listing.C110_found_partial,
   @Properties_Listing.C110_can_partial,
   @Properties_Listing.C110_older_refuted,
   @Properties_Listing1.C113_listing,
   @Properties_Listing1.C113_silent,
   @Properties_Listing6.C112_listing,
   @Properties_Listing6.C112_first,
   @Properties_Listing6.C112_not_can,
   @Properties_Live.C80_keeps_asking,
   @Properties_Live.C80_every_command,
   @Properties_Live.C80_ends_only,
   @Properties_Live2.C80_with_callbacks,
   @Properties_Live2.C80_callbacks_every_command,
   @Properties_Look.C85_changes_nothing,
   @Properties_Look.C85_returns,
   @Properties_Look.C85_moment_partial,
   @Properties_Look.C85_port_partial,
   @Properties_Look.C85_before_or_after,
   @Properties_Look.C85_port_refuted,
   @Properties_Mark.C82_supported,
   @Properties_Mark.C82_as_forced,
   @Properties_Mark.C82_unmarked,
   @Properties_Mark.C82_mode6,
   @Properties_Mark.C82_only_the_set,
   @Properties_Mark.C82_a_set,
   @Properties_More.C28_absent,
   @Properties_More.C28_listed,
   @Properties_More.C15_noop,
   @Properties_More.C15_drop,
   @Properties_More.C23_unknown_id,
   @Properties_Obd.C43_unconnected_query,
   @Properties_Obd.C43_for_ever,
   @Properties_Obd.C36_query_partial,
   @Properties_Obd.C36_silent_afterwards,
   @Properties_Obd.C36_power,
   @Properties_Obd.C36_refuted,
   @Properties_Obd.C44_unsupported,
   @Properties_Obd.C44_only_allowed,
   @Properties_Obd.C44_allowed_sent,
   @Properties_Obd.C45_unaltered,
   @Properties_Obd.C46_fast,
   @Properties_Obd.C46_first_count,
   @Properties_Obd.C46_count_stays,
   @Properties_Obd.C47_repeats_partial,
   @Properties_Obd.C47_engine_partial,
   @Properties_Obd.C47_exception_refuted,
   @Properties_Obd.C47_power_refuted,
   @Properties_Obd.C47_header_refuted,
   @Properties_Obd.C48_header_partial,
   @Properties_Obd.C48_acknowledged,
   @Properties_Obd.C48_refuted,
   @Properties_Obd.C41_wake_up,
   @Properties_Obd.C41_low_power,
   @Properties_Obd.C41_unconnected,
   @Properties_Obd.C49_listings,
   @Properties_Obd.C49_supported,
   @Properties_Obd.C49_connected_first,
   @Properties_Obd.C49_kept,
   @Properties_Obd.C50_choice_partial,
   @Properties_Obd.C50_first_adapter_partial,
   @Properties_Obd.C50_no_ports,
   @Properties_Obd.C50_gives_up_refuted,
   @Properties_Obd.C50_goes_on_refuted,
   @Properties_Obd.C51_close_partial,
   @Properties_Obd.C51_raises_refuted,
   @Properties_Obd.C51_stays_connected_refuted,
   @Properties_Obd.C52_exceptions_partial,
   @Properties_Obd.C52_builtin_only_partial,
   @Properties_Obd.C52_refuted,
   @Properties_Ports.C78_named_port_partial,
   @Properties_Ports.C78_count_partial,
   @Properties_Ports.C78_closed_partial,
   @Properties_Ports.C78_async_partial,
   @Properties_Ports.C78_scan_refuted,
   @Properties_Ports.C78_constructor_refuted,
   @Properties_Ports.C79_exclusive,
   @Properties_Ports.C79_query_alone,
   @Properties_Ports.C79_close_alone,
   @Properties_Print.C99_report,
   @Properties_Print.C99_tells_partial,
   @Properties_Print.C99_unknown_refuted,
   @Properties_Print.C99_status,
   @Properties_Print.C99_unit,
   @Properties_Protocol.C01_can_multi_frame_round_trip,
   @Properties_Protocol.C02_can_single_frame_round_trip,
   @Properties_Protocol.C03_can_soundness,
   @Properties_Protocol.C03_can_exact,
   @Properties_Protocol.C03_understood_once,
   @Properties_Protocol.C04_exact_partial,
   @Properties_Protocol.C04_first_frame_lost,
   @Properties_Protocol.C04_consecutive_lost_partial,
   @Properties_Protocol.C04_few_lost_partial,
   @Properties_Protocol.C04_run_lost_partial,
   @Properties_Protocol.C04_tail_lost,
   @Properties_Protocol.C04_frame_repeated,
   @Properties_Protocol.C04_16_lost_refuted,
   @Properties_Protocol.C04_9_lost_refuted,
   @Properties_Protocol.C04_tail_refuted,
   @Properties_Protocol.C05_exact_partial,
   @Properties_Protocol.C05_reordered_partial,
   @Properties_Protocol.C05_refuted,
   @Properties_Protocol.C06_no_interference,
   @Properties_Protocol.C06_own_lines_only,
   @Properties_Protocol.C07_text_passed_through,
   @Properties_Protocol.C08_malformed_ignored,
   @Properties_Protocol.C08_malformed_or_frame,
   @Properties_Protocol.C09_can_exceptions,
   @Properties_Protocol.C09_can_never_raises_partial,
   @Properties_Protocol.C09_legacy_exceptions,
   @Properties_Protocol.C09_unknown_never_raises,
   @Properties_Protocol.C09_can_refuted,
   @Properties_Protocol.C09_legacy_refuted,
   @Properties_Protocol.C10_legacy_round_trip,
   @Properties_Protocol.C10_legacy_single_line,
   @Properties_Protocol.C10_legacy_gap_or_repetition,
   @Properties_Protocol.C10_legacy_different_modes,
   @Properties_Protocol.C11_legacy_trouble_codes,
   @Properties_Protocol.C12_can_trouble_codes_cut,
   @Properties_Protocol.C13_engine,
   @Properties_Protocol.C13_construction_partial,
   @Properties_Protocol.C13_responders,
   @Properties_Protocol.C13_refuted,
   @Properties_Protocol.C14_one_message_per_ecu,
   @Properties_Raw.C95_parse,
   @Properties_Raw.C95_response,
   @Properties_Raw.C95_received,
   @Properties_Raw.C95_raw_string,
   @Properties_Raw.C95_hex,
   @Properties_Readers.C107_changes_nothing,
   @Properties_Readers.C107_returns,
   @Properties_Readers.C107_moment_partial,
   @Properties_Readers.C107_no_unwatch_partial,
   @Properties_Readers.C107_running_partial,
   @Properties_Readers.C107_refuted,
   @Properties_Readings.C81_status,
   @Properties_Readings.C81_o2_sensors,
   @Properties_Readings.C81_o2_sensors_alt,
   @Properties_Readings.C81_aux_input,
   @Properties_Readings.C81_fuel_status,
   @Properties_Readings.C81_obd_compliance,
   @Properties_Readings.C81_fuel_type,
   @Properties_Readings.C81_freeze_dtc,
   @Properties_Readings.C81_monitor,
   @Properties_Readings.C30_vin_reading_partial,
   @Properties_Repr.C93_eval_repr,
   @Properties_Repr.C93_equal,
   @Properties_Repr.C93_distinct,
   @Properties_Repr.C94_shows,
   @Properties_Repr.C94_tells_partial,
   @Properties_Repr.C94_tells_refuted,
   @Properties_Repr.C94_builtin,
   @Properties_Repr.C94_print_commands,
   @Properties_Repr.C94_builtin_lines,
   @Properties_Scan.C76_found,
   @Properties_Scan.C76_error,
   @Properties_Scan.C76_candidates,
   @Properties_Scan.C76_constructor,
   @Properties_Signed.C66_signed,
   @Properties_Signed.C66_signed_threshold,
   @Properties_Sleep.C91_reading_partial,
   @Properties_Sleep.C91_asleep_partial,
   @Properties_Sleep.C91_power_partial,
   @Properties_Sleep.C92_wakes_partial,
   @Properties_Sleep.C91_normal_repeats_refuted,
   @Properties_Sleep.C91_low_twice_refuted,
   @Properties_Sleep.C91_normal_twice_refuted,
   @Properties_Sleep.C91_restart_refuted,
   @Properties_Sleep.C91_fast_refuted,
   @Properties_Sleep.C92_repeats_refuted,
   @Properties_Slow.C96_one_request,
   @Properties_Slow.C96_own_answer_partial,
   @Properties_Slow.C96_stays,
   @Properties_Slow.C98_acknowledged_partial,
   @Properties_Slow.C97_whole_lines_partial,
   @Properties_Slow.C97_cut_partial,
   @Properties_Slow.C97_session_partial,
   @Properties_Slow.C96_refuted,
   @Properties_Slow.C97_mid_line_refuted,
   @Properties_Slow.C97_lines_refuted,
   @Properties_Slow.C98_refuted,
   @Properties_SlowFast.C109_request_partial,
   @Properties_SlowFast.C109_answer_partial,
   @Properties_SlowFast.C109_recorded_partial,
   @Properties_SlowFast.C109_refuted,
   @Properties_Timed.C104_pace,
   @Properties_Timed.C104_how_often,
   @Properties_Timed.C104_between_rounds,
   @Properties_Timed.C104_no_delay,
   @Properties_Timed.C104_untimed,
   @Properties_Timed.C104_every_schedule,
   @Properties_Uas.C27_standard_compliance,
   @Properties_Uas.C27_standard_fuel,
   @Properties_Uas.C27_standard_fuel_status,
   @Properties_Uas.C27_standard_air_status_partial,
   @Properties_Utils.C32_elements,
   @Properties_Utils.C32_length,
   @Properties_Utils.C32_iteration,
   @Properties_Utils.C32_slices,
   @Properties_Utils.C32_counts,
   @Properties_Utils.C32_value,
   @Properties_Utils.C33_bytes_to_int,
   @Properties_Utils.C33_decodes_encoding,
   @Properties_Utils.C33_encodes_decoding,
   @Properties_Utils.C33_bytes_to_hex,
   @Properties_Utils.C33_twos_comp).
Print Assumptions without_axioms.
(* the axioms of Coq's real numbers *)
Definition with_reals :=
  (@Properties_Dashboard.C101_sensor,
   @Properties_Dashboard.C101_sensor_fast,
   @Properties_Dashboard.C101_sensor_with_callbacks,
   @Properties_Dashboard2.C102_sensor,
   @Properties_Dashboard2.C102_sensor_fast,
   @Properties_EndToEnd.C67_sensor,
   @Properties_EndToEnd.C71_closed_form_partial,
   @Properties_Numbers.C23_linear,
   @Properties_Numbers.C23_monitor_values,
   @Properties_Numbers.C23_signed_ids,
   @Properties_Numbers.C23_numeric_ids,
   @Properties_Numbers.C24_sensors,
   @Properties_Numbers.C24_evap_pressure_partial,
   @Properties_Numbers.C24_evap_pressure_low_byte,
   @Properties_Numbers.C24_evap_pressure_refuted,
   @Properties_Numbers.C24_fuel_rate_range_refuted,
   @Properties_Numbers.C29_verdict_partial,
   @Properties_Numbers.C29_boolean_id,
   @Properties_Numbers.C29_verdict_refuted,
   @Properties_Uas.C23_standard,
   @Properties_Uas.C23_standard_monitor,
   @Properties_Voltage.C66_voltage,
   @Properties_Voltage.C66_threshold,
   @Properties_Voltage.C66_no_car_below_six,
   @Properties_Voltage.C66_other_text).
Print Assumptions with_reals.
