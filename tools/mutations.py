#!/usr/bin/env python3
"""The wrong programs tools/mutate.py builds: prints mutations.json."""
import json
M = []
def m(id, file, definition, old, new, edit, claim):
    M.append(dict(id=id, file=file + '.v', definition=definition, old=old, new=new, edit=edit, claim=claim))
P = 'Protocol'
m('p01', P, 'can_parse_message', 'slice 1 (1 + n) (f_data f)', 'slice 1 n (f_data f)', 'single frame payload is data[1:n] instead of data[1:1+n]', 'C02')
m('p02', P, 'can_parse_message', 'contiguous (map f_seq cf) 1 (zlen cf)', 'contiguous (map f_seq cf) 1 (zlen cf + 1)', 'end of the expected sequence off by one', 'C01')
m('p03', P, 'can_parse_message', 'if negb (contiguous (map f_seq cf) 1 (zlen cf)) then Ok None\n            else', 'if false then Ok None\n            else', 'contiguity check of consecutive frames dropped', 'C04')
m('p04', P, 'unwrap_from', 'if seq <? prev - 7 then', 'if seq <? prev then', 'sequence unwrapping treats any smaller number as a wrap', 'C05')
m('p05', P, 'can_parse_message', 'sort_by f_seq (unwrap cf)', 'sort_by f_seq cf', 'sequence numbers are not unwrapped past 15', 'C01')
m('p06', P, 'can_parse_message', 'sort_by f_seq (unwrap cf)', 'unwrap cf', 'consecutive frames are not sorted', 'C05')
m('p07', P, 'can_parse_message', 'trim_dtc (upto n data)', 'trim_dtc data', 'multi-frame payload not cut to the announced length', 'C01')
m('p08', P, 'can_parse_frame', 'Z.shiftl (Z.land pci 15) 8 + d1', 'Z.land pci 15 + d1', 'high nibble of the 12-bit length not shifted', 'C01')
m('p09', P, 'can_parse_frame', 'if 12 <? zlen rb then Ok None else\n  let! hdr', 'if 11 <? zlen rb then Ok None else\n  let! hdr', 'frames of 12 bytes dropped', 'C01, C02')
m('p10', P, 'can_parse_frame', 'if zlen rb <? 6 then Ok None else\n  if 12', 'if zlen rb <? 5 then Ok None else\n  if 12', '5-byte frames accepted', 'C08, C09')
m('p11', P, 'can_header', 'Ok (priority, addr_mode, 241, Z.land b3 7)', 'Ok (priority, addr_mode, 241, Z.land b3 15)', 'tx id of 11-bit replies is the low nibble', 'C06, C13, C14')
m('p12', P, 'can_header', 'Ok (b0, b1, b2, b3)', 'Ok (b0, b1, b3, b2)', '29-bit source and target swapped', 'C01, C06')
m('p13', P, 'trim_dtc', 'd1 * 2 + 2', 'd1 * 2', 'DTC answers cut two bytes short', 'C11')
m('p14', P, 'trim_dtc', 'if d0 =? 67 then', 'if d0 =? 71 then', 'trimming applied to mode 07 instead of 03', 'C11')
m('p15', P, 'legacy_parse_frame', 'slice 3 (length rb - 1) rb', 'from 3 rb', 'legacy checksum byte kept in the data', 'C10, C12')
m('p16', P, 'legacy_parse_frame', 'if 11 <? zlen rb then', 'if 12 <? zlen rb then', '12-byte legacy lines accepted', 'C08')
m('p17', P, 'legacy_parse_message', 'contiguous (map fst sorted) 1 (zlen frames)', 'contiguous (map fst sorted) 0 (zlen frames - 1)', 'legacy numbering from 0', 'C10')
m('p18', P, 'legacy_parse_message', 'acc ++ from 3 (f_data f)', 'acc ++ from 2 (f_data f)', 'order byte of later legacy frames kept', 'C10')
m('p19', P, 'legacy_parse_message', '(pop_at 2 (f_data f0))', '(f_data f0)', 'order byte of the first legacy frame kept', 'C10')
m('p20', P, 'legacy_parse_message', 'frames [67; 0]', 'frames [67]', 'no fake count byte for mode 03', 'C12')
m('p21', P, 'group_frame', '(l ++ [f])', '(f :: l)', 'frames of an ECU collected in reverse order', 'C01')
m('p22', P, 'assemble', 'dict_get oz_eqb map_ (fst kv) with Some e => e | None => ECU_UNKNOWN', 'dict_get oz_eqb map_ (fst kv) with Some e => e | None => ECU_ENGINE', 'unmapped ids tagged as engine', 'C14')
m('p23', P, 'protocol_call', 'rmap (assemble c map_) (sort_by (fun kv => okey (fst kv)) by_ecu)', 'rmap (assemble c map_) by_ecu', 'messages not sorted by id', 'C14')
m('p24', P, 'protocol_call', 'Ok (List.concat msgs ++ map (fun l => mkMessage [new_frame l] ECU_UNKNOWN []) non_obd_lines)', 'Ok (List.concat msgs)', 'non-hex lines discarded', 'C07')
m('p25', P, 'protocol_call', 'map (fun l => mkMessage [new_frame l] ECU_UNKNOWN []) non_obd_lines', 'map (fun l => mkMessage [new_frame l] ECU_ENGINE []) non_obd_lines', 'non-hex lines tagged as engine', 'C07')
m('p26', P, 'protocol_call', 'map no_spaces (filter (fun l => isHex (no_spaces l)) lines)', 'filter (fun l => isHex l) lines', 'spaces not removed before the hex test', 'C01, C02')
m('p27', P, 'populate_ecu_map', '| [m] => dict_set oz_eqb map_ (m_tx_id m) ECU_ENGINE\n', '', 'the only answer is not taken as the engine', 'C13')
m('p28', P, 'populate_ecu_map', 'filter m_parsed messages', 'messages', 'messages without data are counted', 'C13')
m('p29', P, 'most_bits', 'if fst st <? bits then', 'if fst st <=? bits then', 'last instead of first among equals gets the engine tag', 'C13')
m('p30', P, 'match_known', "(dict_set oz_eqb (fst st) (Some t) ECU_ENGINE, true)", "(dict_set oz_eqb (fst st) (Some t) ECU_ENGINE, snd st)", 'found_engine never set', 'C13')
m('p31', P, 'mark_unknown', 'if dict_mem oz_eqb map_ (m_tx_id m) then map_ else', 'if false then map_ else', 'every id overwritten with unknown', 'C13')
m('p32', P, 'tx_id_engine', 'FLegacy => Some 16', 'FLegacy => Some 10', 'legacy engine id 10 instead of 0x10', 'C13')
m('p33', P, 'can_parse_frame', 'if data_len =? 0 then Ok None else Ok (Some (fr 0 (Some data_len)))\n  else if type =? FRAME_TYPE_FF', 'Ok (Some (fr 0 (Some data_len)))\n  else if type =? FRAME_TYPE_FF', 'empty single frames not dropped', 'C08, C09')
U = 'Utils'
m('u01', U, 'ba_of', 'repeat false (8 - length v) ++ v', 'repeat false (7 - length v) ++ v', 'bytes padded to 7 bits', 'C32, C25')
m('u02', U, 'bytes_to_int', 'snd vp + 8)) (rev bs)', 'snd vp + 8)) bs', 'little endian', 'C33')
m('u03', U, 'twos_comp', 'val - Z.shiftl 1 num_bits', 'val - Z.shiftl 1 (num_bits - 1)', 'wrong modulus', 'C33')
m('u04', U, 'bytes_to_hex', 'repeat 48 (2 - length bh) ++ bh', 'bh', 'leading zero dropped', 'C33, C20')
m('u05', U, 'contiguous', 'fst p + 1 =? snd p', 'fst p <? snd p', 'gaps accepted', 'C04, C10, C33')
m('u06', U, 'ba_value', 'slice start stop a', 'slice start (stop - 1) a', 'value drops the last bit', 'C25')
m('u07', 'Py', 'hexval', "(97 <=? c) && (c <=? 102) then Some (c - 87)", "(97 <=? c) && (c <=? 102) then None", 'lower case hex rejected', 'C01')
m('u08', U, 'isHex', 'forallb (fun c => match hexval', 'existsb (fun c => match hexval', 'one hex digit is enough', 'C07')
D = 'Decoders'
m('d01', D, 'dec_percent', '(F 255 1)) "percent")', '(F 256 1)) "percent")', 'divides by 256', 'C23')
m('d02', D, 'dec_percent_centered', '(PyInt 128)) (F 100 1)) (F 128 1)', '(PyInt 127)) (F 100 1)) (F 128 1)', 'centred at 127', 'C23')
m('d03', D, 'dec_current_centered', 'slice 2 4 d) in\n  Ok (qty (num_sub', 'slice 0 2 d) in\n  Ok (qty (num_sub', 'reads bytes A,B', 'C23')
m('d04', D, 'dec_sensor_voltage_big', '(PyInt 65535)', '(PyInt 65536)', 'divides by 65536', 'C23')
m('d05', D, 'dec_evap_pressure', 'let b := twos_comp d1 8 in', 'let b := d1 in', 'low byte not signed (the correct formula!)', 'C24 as stated')
m('d06', D, 'dec_fuel_rate', 'F 5 100', 'F 5 10', 'factor 0.5', 'C23')
m('d07', D, 'dec_inject_timing', '26880', '26800', 'offset', 'C23')
m('d08', D, 'dec_absolute_load', '(num_div (F 100 1) (F 255 1))) "percent"', '(num_div (F 100 1) (F 255 1))) "ratio"', 'unit', 'C23')
m('d09', D, 'dec_o2_sensors', 'ba_slice bits 0 4; ba_from bits 4', 'ba_slice bits 0 4; ba_from bits 5', 'second bank shifted', 'C26')
m('d10', D, 'dec_aux_input_status', 'Z.shiftr d0 7', 'Z.shiftr d0 6', 'bit 6', 'C26')
m('d11', D, 'dec_status', 'ba_value bits 1 8', 'ba_value bits 0 8', 'MIL bit counted in the DTC count', 'C25')
m('d12', D, 'dec_status', 'load_tests bits 13 9 (rev BASE_TESTS)', 'load_tests bits 9 13 (rev BASE_TESTS)', 'available and complete swapped', 'C25')
m('d13', D, 'dec_status', 'load_tests bits 16 24 (rev SPARK_TESTS)', 'load_tests bits 16 24 SPARK_TESTS', 'spark tests in the wrong order', 'C25')
m('d14', D, 'load_tests', '(negb (ba_get bits compl))', '(ba_get bits compl)', 'completeness inverted', 'C25')
m('d15', D, 'fuel_status_half', 'if count_true bits =? 1 then', 'if 1 <=? count_true bits then', 'more than one bit accepted', 'C27')
m('d16', D, 'dec_air_status', 'if num_set bits =? 1 then', 'if 1 <=? num_set bits then', 'more than one bit accepted', 'C27, C19')
m('d17', D, 'dec_obd_compliance', 'i <? zlen OBD_COMPLIANCE', 'i <=? zlen OBD_COMPLIANCE', 'index check off by one', 'C19, C27')
m('d18', D, 'parse_dtc', 'Z.shiftr b0 6', 'Z.shiftr b0 7', 'letter from one bit', 'C20')
m('d19', D, 'parse_dtc', 'Z.land (Z.shiftr b0 4) 3', 'Z.land (Z.shiftr b0 4) 7', 'first digit from three bits', 'C20')
m('d20', D, 'parse_dtc', '(is_tuple && text_eqb bs [0; 0])', 'false', '00 00 padding reported as a code', 'C21')
m('d21', D, 'dtc_pairs', 'Ok (match r with Some c => c :: rest | None => rest end)', 'Ok (match r with Some c => rest ++ [c] | None => rest end)', 'codes in reverse order', 'C21')
m('d22', D, 'dec_dtc', 'List.concat (map (fun m => from 2 (m_data m)) messages)', 'List.concat (map (fun m => from 1 (m_data m)) messages)', 'count byte decoded as a code', 'C21')
m('d23', D, 'parse_monitor_test', 'let! lo := uas_call u (slice 5 7 d) in\n      let! hi := uas_call u (from 7 d) in', 'let! hi := uas_call u (slice 5 7 d) in\n      let! lo := uas_call u (from 7 d) in', 'min and max swapped', 'C28')
m('d24', D, 'test_passed', 'tval_le lo v && tval_le v hi', 'tval_le lo v || tval_le v hi', 'or instead of and', 'C28')
m('d25', D, 'add_test', 'Some tid => dict_set Z.eqb (mon_tests m) tid t', 'Some tid => mon_tests m', 'tests not filed by id', 'C28')
m('d26', D, 'dec_monitor', 'Nat.div (length d) 9', 'Nat.div (length d) 9 - 1', 'last block ignored', 'C28')
m('d27', D, 'decode_encoded_string', 'if zlen d <? length_ then', 'if zlen d <=? length_ then', 'length check off by one', 'C30')
m('d28', D, 'dec_cvn', 'decode_encoded_string 4', 'decode_encoded_string 5', 'CVN needs five bytes', 'C31')
m('d29', D, 'uas_call', 'num_add v (lit_num offset)', 'num_sub v (lit_num offset)', 'offset subtracted', 'C29')
m('d30', D, 'uas_call', 'if signed then', 'if negb signed then', 'signedness inverted', 'C29')
m('d31', 'UasTable', 'UAS_IDS', '(7, UAS false (LDec (25) 100)', '(7, UAS false (LDec (25) 10)', 'rpm scale 2.5', 'C29, C23')
m('d32', 'UasTable', 'UAS_IDS', '(22, UAS false (LDec (1) 10) (str "celsius") (LDec (-400) 10)', '(22, UAS false (LDec (1) 10) (str "celsius") (LDec (400) 10)', 'sign of the offset', 'C29')
m('d33', D, 'dec_elm_voltage', 'remove_char 118 (lower (f_raw f))', 'lower (f_raw f)', 'the V is not removed', 'C66')
C = 'Command'
m('c01', C, 'constrain', 'if n <? len then', 'if n <? len - 1 then', 'one byte too many kept', 'C17')
m('c02', C, 'constrain', 'm_data m ++ repeat 0', 'repeat 0 (Z.to_nat (n - len)) ++ m_data m ++ repeat 0 0 ++ repeat 1', 'padding in front', 'C17')
m('c03', C, 'cmd_call', 'if nonempty messages then\n    let! v', 'if true then\n    let! v', 'decoder called without messages', 'C16, C19')
m('c04', C, 'cmd_call', '0 <? Z.land (c_ecu c) (m_ecu m)', '(c_ecu c) =? (m_ecu m)', 'ECU filter by equality', 'C15')
m('c05', C, 'cmd_eqb', ' && text_eqb (c_header a) (c_header b)', '', 'header not compared', 'C18')
m('c06', C, 'is_null', 'negb (nonempty (r_messages r)) || is_none (r_value r)', 'negb (nonempty (r_messages r)) && is_none (r_value r)', 'and instead of or', 'C16')
m('c07', C, 'c_pid', 'from 2 (c_command c)', 'upto 2 (c_command c)', 'pid read from the mode', 'C63')
m('c08', 'Commands', 'to_mode2', 'if is_pid_decoder (c_decode c) then D_drop else c_decode c', 'c_decode c', 'mode 2 PID listings keep their decoder', 'C64')
m('c09', 'Commands', 'has_pid', 'if zlen m <=? pid then false', 'if zlen m <? pid then false', 'bound off by one', 'C63')
m('c10', 'Commands', 'to_mode2', 'str "02" ++ from 2', 'str "01" ++ from 2', 'mode digits not replaced', 'C63, C64')
E = 'Elm'
m('e01', E, 'read_loop', 'let buffer := buffer ++ data in\n      if contains marker buffer', 'let buffer := buffer ++ data in\n      if contains marker data', 'marker looked for in the last chunk only', 'C34')
m('e02', E, 'clean', 'let buffer := remove_char 0 buffer in\n', '', 'null bytes kept', 'C34')
m('e03', E, 'clean', 'filter nonempty (split_crlf string)', 'split_crlf string', 'empty lines kept', 'C34')
m('e04', E, 'io_failure', 'do! set_status NOT_CONNECTED;\n  do! emit_e EvClose;\n  set_port None', 'do! emit_e EvClose;\n  set_port None', 'status not reset after an I/O error', 'C38')
m('e05', E, 'io_failure', 'do! emit_e EvClose;\n  set_port None', 'set_port None', 'port not closed after an I/O error', 'C38, C40')
m('e06', E, 'elm_close', 'do! elm_write (str "ATZ");\n', '', 'no reset on close', 'C40')
m('e07', E, 'elm_close', 'Some _ => do! emit_e EvClose; set_port None', 'Some _ => set_port None', 'port not closed', 'C40')
m('e08', E, 'elm_write', 'cmd ++ [13]', 'cmd ++ [10]', 'LF instead of CR', 'C35')
m('e09', E, 'elm_init_opened', 'if negb (isok r true) then elm_error', 'if negb (isok r true) then ret tt', 'failed echo-off does not close', 'C37')
m('e10', E, 'elm_init_voltage', 'if flt v (float_of_Z 6) then ret tt', 'if flt v (float_of_Z 6) then elm_init_car protocol_', 'low voltage ignored', 'C39')
m('e11', E, 'auto_protocol', 'if has_message r0100 UNABLE then ret false\n  else', 'if false then ret false\n  else', 'UNABLE TO CONNECT ignored', 'C37')
m('e12', E, 'strip_auto', '(1 <? zlen p) && startswith (str "A") p', 'startswith (str "A") p', 'protocol A stripped to nothing', 'C42')
m('e13', E, 'send_and_parse', '(if lp then (do! elm_normal_power; ret tt) else ret tt)', '(ret tt)', 'not woken from low power', 'C41')
m('e14', E, 'send_and_parse', 'if status_eqb s NOT_CONNECTED then ret None\n  else\n    do lp', 'if false then ret None\n  else\n    do lp', 'not-connected check dropped', 'C38, C43')
m('e15', E, 'elm_init_car', 'do! set_status CAR_CONNECTED;\n    do p', 'do p', 'car connected never reported', 'C37')
m('e16', E, 'retries', 'if delay then fadd (float_of_Z 0) (float_of_Z 1) else float_of_Z 0', 'if delay then float_of_Z 0 else float_of_Z 0', 'retries despite the delay', 'C35')
m('e17', E, 'try_each_baud', 'if endswith1 62 response then', 'if contains [62] response then', 'prompt anywhere', 'C42')
m('e18', E, 'isok', 'match lines with [l] => text_eqb l (str "OK") | _ => false end', 'match lines with l :: _ => text_eqb l (str "OK") | _ => false end', 'first line is enough', 'C37')
m('e19', E, 'elm_low_power', 'if existsb (text_eqb (str "OK")) lines then set_low_power true else ret tt', 'set_low_power true', 'low power assumed', 'C41')
O = 'Obd'
m('o01', O, 'set_header', 'if text_eqb h last then ret tt', 'if false then ret tt', 'header sent every time', 'C46')
m('o02', O, 'set_header', 'else set_last_header h', 'else ret tt', 'header not remembered', 'C46')
m('o03', O, 'set_header', 'if negb (text_eqb (join [10] (map m_raw ms)) (str "OK")) then ret tt\n        else set_last_header h', 'set_last_header h', 'header remembered though refused', 'C46')
m('o04', O, 'build_command_string', 'if o_fast o && text_eqb s (o_last_command o) then []', 'if text_eqb s (o_last_command o) then []', 'repeat used without fast mode', 'C47, C48')
m('o05', O, 'build_command_string', 'if o_fast o && c_fast c then', 'if o_fast o then', 'count appended to commands that forbid it', 'C47')
m('o06', O, 'query', 'if nonempty cmd_string then set_last_command cmd_string else ret tt', 'ret tt', 'last command not remembered', 'C48')
m('o07', O, 'query', 'if nonempty cmd_string then set_last_command cmd_string else ret tt', 'set_last_command cmd_string', 'empty string remembered', 'C48')
m('o08', O, 'query', 'if dict_mem cmd_eqb counts c then ret tt\n', 'if false then ret tt\n', 'frame count updated at every query', 'C47')
m('o09', O, 'query', 'if negb allowed then ret empty_response\n    else\n', 'if false then ret empty_response\n    else\n', 'unsupported commands sent', 'C44')
m('o10', O, 'test_cmd', 'if negb (supports o c) then Ok false', 'if supports o c then Ok false', 'test inverted', 'C44')
m('o11', O, 'test_cmd', '[str "6"; str "7"; str "8"; str "9"]', '[str "6"; str "7"; str "8"]', 'mode 06 refused on protocol 9', 'C52')
m('o12', O, 'enable_bits', 'if b then enable_pid mode (pid + 1) l else l', 'if b then enable_pid mode pid l else l', 'PID off by one', 'C45')
m('o13', O, 'enable_pid', 'if (mode =? 1) && has_pid 2 pid then', 'if has_pid 2 pid then', 'mode 2 enabled by other listings', 'C45')
m('o14', O, 'obd_close', 'do! set_supported [];\n', '', 'supported commands kept after close', 'C50')
m('o15', O, 'obd_close', 'do! set_header ECU_HEADER_ENGINE;\n', '', 'header not restored on close', 'C50')
m('o16', O, 'obd_close', 'do! on_interface elm_close;\n      set_interface None', 'on_interface elm_close', 'interface kept after close', 'C50')
m('o17', O, 'connect_scan', 'text_leb (status_text ELM_CONNECTED) (status_text st)', 'status_eqb st CAR_CONNECTED', 'keeps scanning past a port with an adapter', 'C51')
m('o18', O, 'close_if_failed', 'if status_eqb st NOT_CONNECTED then obd_close else ret tt', 'ret tt', 'failed connection not closed', 'C49, C51')
m('o19', O, 'load_commands', 'if negb (status_eqb st CAR_CONNECTED) then ret tt else', '', 'commands loaded without a car', 'C45, C49')
m('o20', O, 'query', 'if status_eqb st NOT_CONNECTED then ret empty_response\n  else\n    do allowed', 'if false then ret empty_response\n  else\n    do allowed', 'not-connected check dropped', 'C43')
m('o21', O, 'is_connected', 'status_eqb (obd_status o) CAR_CONNECTED', 'negb (status_eqb (obd_status o) NOT_CONNECTED)', 'any connection counts', 'C49')
A = 'Async'
m('a01', A, 'main_step', 'AWatch c cb force =>                                   (* 132 if self.__running *)\n                    if a_running s then finish ODone s else', 'AWatch c cb force =>                                   (* 132 if self.__running *)\n                    if false then finish ODone s else', 'watch allowed while running', 'C54, C57')
m('a02', A, 'watch_table', 'if existsb (Z.eqb f) l then Ok (cmds, cbs)\n                  else', 'if false then Ok (cmds, cbs)\n                  else', 'callback registered twice', 'C53')
m('a03', A, 'unwatch_table', 'Ok (if nonempty l\' then (cmds, cbs) else (dict_pop cmd_eqb cmds c, cbs))', 'Ok (cmds, cbs)', 'command kept after its last callback is removed', 'C53')
m('a04', A, 'main_step', 'M_stop2 k => Some (upd_pc (M_stop3 k) (upd_running false s))', 'M_stop2 k => Some (upd_pc (M_stop3 k) s)', 'running flag not cleared by stop', 'C55, C58')
m('a05', A, 'main_step', 'M_stop4 i k => if ended i s then Some (upd_pc (M_stop5 k) s) else None', 'M_stop4 i k => Some (upd_pc (M_stop5 k) s)', 'stop does not join', 'C55')
m('a06', A, 'main_step', 'M_start3 => Some (match a_thread s with None => upd_pc M_start4 s | Some _ => finish (match a_op s with AExit => OBool false | _ => ODone end) s end)', 'M_start3 => Some (upd_pc M_start4 s)', 'start does not check for a thread', 'C56')
m('a07', A, 'main_step', 'M_exit2 => Some (if a_was_running s then upd_pc M_start1 s', 'M_exit2 => Some (if true then upd_pc M_start1 s', 'pause always resumes', 'C59')
m('a08', A, 'main_step', 'upd_was (a_running s) s', 'upd_was true s', 'pause forgets that nothing ran', 'C59')
m('a09', A, 'thread_step', 'T_while => Some (set_tpc i (if a_running s then T_len else T_done) s)', 'T_while => Some (set_tpc i T_len s)', 'update thread ignores stop', 'C55')
m('a10', A, 'thread_step', 'T_call c r fs it) (add_event', 'T_next it) (add_event', 'only the first callback called', 'C60')
m('a11', A, 'main_step', 'M_unwatch_all => Some (finish ODone (upd_gen (S (a_gen s)) (upd_dicts ([], []) s)))', 'M_unwatch_all => Some (finish ODone (upd_gen (S (a_gen s)) (upd_dicts ([], a_cbs s) s)))', 'callbacks survive unwatch_all', 'C53')
m('a12', A, 'main_step', "AUnwatchAll =>                                         (* 181 *)\n                    if a_running s then finish ODone s else", "AUnwatchAll =>                                         (* 181 *)\n                    if false then finish ODone s else", 'unwatch_all allowed while running', 'C54, C57')
SC, B2 = 'Scan', 'Async2'
m('s01', SC, 'try_port', 'if negb (n =? ENOENT) then (OsError n, [])', 'if n =? ENOENT then (OsError n, [])', 'errno test inverted: a missing port raises', 'C76')
m('s02', SC, 'try_port', '(Found true, [SOpened name; SClosed name])', '(Found true, [SOpened name])', 'probed port is not closed', 'C76')
m('s03', SC, 'fnmatch', '(48 <=? x) && (x <=? 57)', '(48 <=? x) && (x <=? 56)', '[0-9] does not match 9', 'C76')
m('s04', SC, 'possible_ports', 'glob_dev m (map GChar (str "rfcomm") ++ [GDigit; GStar]) ++ glob_dev m (map GChar (str "ttyUSB") ++ [GDigit; GStar])', 'glob_dev m (map GChar (str "ttyUSB") ++ [GDigit; GStar]) ++ glob_dev m (map GChar (str "rfcomm") ++ [GDigit; GStar])', 'USB ports tried before Bluetooth', 'C76')
m('s05', SC, 'possible_ports', 'seq 0 256', 'seq 0 255', 'COM255 is not tried', 'C76')
m('s06', SC, 'possible_ports', '[str "/dev/tty.Bluetooth-Incoming-Port"; str "/dev/tty.Bluetooth-Modem"]', '[str "/dev/tty.Bluetooth-Incoming-Port"]', 'the Bluetooth modem is tried on a Mac', 'C76')
m('s07', SC, 'try_ports', 'available ++ [p]', 'p :: available', 'ports returned in reverse order', 'C76')
m('s08', SC, 'possible_ports', 'starts (str "linux") || starts (str "cygwin")', 'starts (str "linux")', 'no ports on cygwin', 'C76')
m('b01', B2, 'cb_step', 'match pc with M_stop4 j _ => Nat.eqb i j | _ => false end', 'false', 'a thread may wait for itself', 'C75')
m('b02', B2, 'cb_does', 'Raises => Some (mkB (set_tpc i (T_dead CustomError) (b_a s))', 'Raises => Some (mkB (b_a s)', 'an exception of a callback is swallowed', 'C75')
m('b03', B2, 'loop_step', 'Some (T_call _ _ (_ :: _) _) => true', 'Some (T_call _ _ (_ :: _) _) => false', 'callbacks do nothing', 'C73')
m('b04', B2, 'cb_step', 'b_log s ++ [(i, op, ORaised RuntimeError)]', 'b_log s ++ [(i, op, ODone)]', 'joining the own thread returns normally', 'C75')
m('l01', A, 'main_step', 'Some i => upd_pc (M_stop4 i k) s', 'Some i => upd_pc (M_stop5 k) s', 'stop() does not join', 'C56, C79')
m('l02', A, 'thread_step', 'T_call c r [] it => Some (set_tpc i (T_next it) s)', 'T_call c r [] it => Some (set_tpc i T_sleep s)', 'only the first command of the table is asked', 'C55, C80')
m('l03', A, 'thread_step', 'T_sleep => Some (set_tpc i T_while s)', 'T_sleep => Some (set_tpc i T_sleep s)', 'the loop hangs after the first round', 'C80')
m('l04', A, 'main_step', 'AClose => upd_pc (M_stop1 K_close) s', 'AClose => upd_pc M_close2 s', 'close() does not stop the loop first', 'C56, C79')
m('l05', A, 'thread_step', 'if async_connected s then T_query c it else T_disc1', 'T_query c it', 'the loop does not look at the connection', 'C61')
m('l06', A, 'thread_step', '(dict_set cmd_eqb (a_cmds s) c r, a_cbs s) s))', '(a_cmds s, a_cbs s) s))', 'the answer is not stored', 'C59')
m('x01', E, 'io_failure', 'do! emit_e EvClose;\n  set_port None.', 'set_port None.', 'port not closed after an I/O error', 'C78, C36')
m('x02', E, 'io_failure', 'do! emit_e EvClose;\n  set_port None.', 'emit_e EvClose.', 'port object kept after an I/O error', 'C78, C36')
m('x03', E, 'elm_close', 'do! emit_e EvClose; set_port None\n', 'set_port None\n', 'close() forgets the port without closing it', 'C78, C51')
m('x04', P, 'unwrap_from', 'seq <? prev - 7', 'seq <? prev - 6', 'window of the unwrapping one smaller', 'C05')
m('x05', P, 'unwrap_from', 'seq <? prev - 7', 'seq <? prev - 8', 'window of the unwrapping one larger', 'C05')
m('x06', D, 'dec_elm_voltage', 'remove_char 118 (lower (f_raw f))', 'lower (f_raw f)', 'the V is not removed', 'C66')
F = 'Fine'
m('f01', F, 'f_send_gen', 'f_read_again (retries delay) marker r', 'f_read_again O marker r', 'an empty answer is not waited for', 'C83, C84')
m('f02', F, 'f_send_and_parse', '(if lp then (let*! f_elm_normal_power; pure tt) else pure tt)', 'pure tt', 'a query does not wake a sleeping adapter', 'C83, C84')
m('f03', F, 'f_elm_low_power', '(if existsb (text_eqb (str "OK")) lines then elm_ (set_low_power true) else pure tt)', 'elm_ (set_low_power true)', 'taken to be asleep whatever the adapter says', 'C84')
m('f04', F, 'f_obd_close', 'let*! f_elm_close;\n      obj (set_interface None)', 'f_elm_close', 'close() keeps the adapter object', 'C83')
m('f06', F, 'f_main', '| Some _ => None                                (* the user\'s thread is in a power call *)', '| Some _ => option_map (fun a => f_upd a f) (main_step (f_a f))', 'the user\'s thread goes on with other calls during a power call', 'C84')
m('f07', F, 'f_do_power', '  match a_pc (f_a f) with\n  | M_idle =>\n      Some (match f_power', '  match M_idle with\n  | M_idle =>\n      Some (match f_power', 'power calls in the middle of other calls of the same thread', 'C84')
m('f08', F, 'f_set_header', 'if text_eqb h last then pure tt\n  else', 'if text_eqb h last then pure tt\n  else let*! obj (set_last_header h);', 'the header is noted before the adapter confirmed it', 'C83')
m('f09', F, 'f_query', 'let*! f_set_header (c_header c);', '', 'the header is not set', 'C83')
m('f10', A, 'main_step', 'M_stop4 i k => if ended i s then Some (upd_pc (M_stop5 k) s) else None', 'M_stop4 i k => Some (upd_pc (M_stop5 k) s)', 'stop() does not wait: close() and a query at the same time', 'C83')
m('f11', A, 'main_step', 'M_start3 => Some (match a_thread s with None => upd_pc M_start4 s | Some _ => finish (match a_op s with AExit => OBool false | _ => ODone end) s end)', 'M_start3 => Some (upd_pc M_start4 s)', 'start() twice: two threads ask at the same time', 'C83')
m('f12', F, 'f_io_failure', 'let*! elm_ (set_status NOT_CONNECTED);\n  let*! elm_ (emit_e EvClose);', 'let*! elm_ (emit_e EvClose);', 'status kept after an I/O error', 'C83, C84')
m('k01', O, 'set_add', 'if in_set c l then l else l ++ [c]', 'l ++ [c]', 'the set holds a command twice', 'C82')
m('k02', O, 'run_op', 'set_supported (set_add c l)', 'set_supported l', 'add() has no effect', 'C82')
m('k03', O, 'run_op', 'set_supported (set_add c l)', 'set_supported [c]', 'add() forgets the others', 'C82')
m('k04', O, 'test_cmd', 'if negb (supports o c) then Ok false', 'if negb (supports o c) && negb (c_fast c) then Ok false', 'some commands are sent without being supported', 'C44, C82')
m('k05', O, 'obd_close', 'do! set_supported [];', '', 'added commands survive close()', 'C82, C51')
L = 'Look'
m('y01', L, 'f_look', "| LConnected => let* s <- elm_ (elm_of e_status); pure (SBool (status_eqb s CAR_CONNECTED))", "| LConnected => pure (SBool true)", 'is_connected() takes any adapter object for a connection', 'C85')
m('y02', L, 'f_look', "| LStatus => let* s <- elm_ (elm_of e_status); pure (SStatus s)", "| LStatus => let* s <- elm_ (elm_of e_status); let*! elm_ (set_status s); pure (SStatus s)", 'status() writes back what it read', 'C85')
m('y03', L, 'f_look', "let* t <- obj (fun s => (obd_protocol_id (fst s), s)); pure (SText t)", "let* t <- obj (fun s => (obd_protocol_name (fst s), s)); pure (SText t)", 'protocol_id() gives the name', 'C85')
m('y04', L, 'f_look', "let* b <- obj (obd_of (fun o => supports o c)); pure (SBool b)", "let* i <- obj (obd_of o_interface); match i with None => pure (SBool false) | Some _ => let* b <- obj (obd_of (fun o => supports o c)); pure (SBool (negb b)) end", 'supports() the wrong way round', 'C85')
m('y05', L, 'f_port_name', "match p with None => Done (Raise AttributeError) | Some p => pure (pt_name p) end", "match p with None => pure [] | Some p => pure (pt_name p) end", 'port_name() does not raise (the race repaired)', 'C85')
m('y06', L, 'f_look', "pure (match k with LStatus => SStatus NOT_CONNECTED | LConnected", "pure (match k with LStatus => SStatus OBD_CONNECTED | LConnected", 'status() without adapter is not Not Connected', 'C85')
m('y07', F, 'f_io_failure', 'let*! elm_ (set_status NOT_CONNECTED);\n  let*! elm_ (emit_e EvClose);', 'let*! elm_ (set_status ELM_CONNECTED);\n  let*! elm_ (set_status NOT_CONNECTED);\n  let*! elm_ (emit_e EvClose);', 'a status in between that is neither the one before nor the one after', 'C85')
# C86
m('z01', 'Codes', 'AIR_STATUS', '(str "Upstream");', '(str "Up stream");', 'a status string not in the documentation', 'C86')
m('z02', 'CommandTable', 'mode1', '(str "0106") 3 D_percent_centered', '(str "0106") 3 D_temp', 'a fuel trim in degrees', 'C86')
m('z03', 'CommandTable', 'mode1', '(str "COOLANT_TEMP") (str "Engine', '(str "ENGINE_TEMP") (str "Engine', 'a command under another name', 'C86')
m('z04', D, 'dec_fuel_pressure', '(PyInt 3)) "kilopascal")', '(PyInt 3)) "pascal")', 'unit', 'C86')
m('z05', D, 'dec_cvn', 'VText (bytes_to_hex d)', 'VText d', 'CVN not in hexadecimal', 'C86')
m('z06', D, 'dec_o2_sensors_alt', 'ba_slice bits 4 6; ba_from bits 6', 'ba_from bits 4', 'three banks instead of four', 'C86')
m('z07', 'Commands', 'to_mode2', 'if is_pid_decoder (c_decode c) then D_drop else c_decode c', 'D_drop', 'freeze-frame commands give nothing', 'C64, C86')
m('z08', D, 'dec_air_status', 'let! i := index_true (ba_slice bits 0 8) in\n    let! s := get AIR_STATUS (7 - i) in', 'let! i := index_true (ba_slice bits 0 8) in\n    let! s := get FUEL_STATUS (7 - i) in', 'the wrong table of strings', 'C27, C86')
# C87-C89
m('w01', O, 'build_command_string', 'let s := if o_fast o && c_fast c then', 'let s := if c_fast c then', 'a frame count is appended with fast=False too', 'C87')
m('w02', O, 'query', 'do! set_header (c_header c);', 'do! (if nonempty (c_header c) then ret tt else set_header (c_header c));', 'the header is never changed', 'C87, C88')
m('w03', E, 'elm_init_opened', '      do r <- elm_send (str "ATH1") false;\n      if negb (isok r false) then elm_error\n      else\n', '', 'headers are not switched on', 'C87')
m('w04', E, 'elm_init_opened', 'do r <- elm_send (str "ATE0") false;\n    if negb (isok r true) then elm_error', 'do r <- elm_send (str "ATL0") false;\n    if negb (isok r true) then elm_error', 'the echo is not switched off', 'C87')
m('w05', O, 'build_command_string', 'Some n => s ++ str_nat n', 'Some n => s ++ str_nat (S n)', 'one line more is waited for', 'C89')
m('w06', O, 'build_command_string', 'if o_fast o && text_eqb s (o_last_command o) then [] else s.', 'if o_fast o && text_eqb (c_command c) (o_last_command o) then [] else s.', 'a repeated request is not limited', 'C89')
m('w07', O, 'build_command_string', 'if o_fast o && text_eqb s (o_last_command o) then [] else s.', 'if text_eqb s (o_last_command o) then [] else s.', 'the blank line is used with fast=False too', 'C87')
m('w08', O, 'query', 'do messages <- on_interface (send_and_parse cmd_string);', 'do! on_interface (send_and_parse cmd_string);\n      do messages <- on_interface (send_and_parse cmd_string);', 'every request is sent twice', 'C87')
m('w09', O, 'set_header', 'str "AT SH " ++ h ++ str " "', 'str "AT SR " ++ h ++ str " "', 'the wrong command sets the header', 'C87, C88')
m('w10', O, 'query', 'do messages <- on_interface (send_and_parse cmd_string);', 'do messages <- on_interface (send_and_parse (c_command c));', 'the count is never sent', 'C89')
# C90
m('v01', A, 'main_step', 'finish (OResponse (match dict_get cmd_eqb (a_cmds s) c with\n                                       | Some r => r\n                                       | None => empty_response', 'finish (OResponse (match a_cmds s with\n                                       | (_, r) :: _ => r\n                                       | [] => empty_response', 'query() gives the response of the first command', 'C59, C90')
m('v02', A, 'thread_step', '(add_event (AEv_fire i c f r) s)', '(add_event (AEv_fire i c f empty_response) s)', 'callbacks get an empty response', 'C55, C90')
m('v03', A, 'thread_step', "let '(r, ow) := query c true (a_obd s, a_world s) in", "let '(_, ow) := query c true (a_obd s, a_world s) in let '(r, ow) := query c true ow in", 'the update loop asks twice', 'C90')
m('v04', A, 'main_step', "| M_start4 => Some (upd_pc M_start5 (upd_running true s))", "| M_start4 => Some (upd_pc M_start5 (upd_running true (match a_cmds s with (c, _) :: _ => upd_obd (snd (query c true (a_obd s, a_world s))) s | [] => s end)))", 'start() asks the first command itself', 'C90')
m('v05', A, 'thread_step', "Some (set_tpc i (match r with Ok r => T_store c r it | Raise e => T_dead e end) s)", "Some (set_tpc i (match r with Ok r => match it_keys it with c' :: _ => T_store c' r it | [] => T_store c r it end | Raise e => T_dead e end) s)", 'the response is stored under the next command', 'C59, C90')
m('v06', O, 'obd_close', 'do! set_header ECU_HEADER_ENGINE;', 'do! set_header ECU_HEADER_ENGINE; do! on_interface (send_and_parse (str "0100"));', 'close() puts a request to the car', 'C90')
# C91, C92
m('q01', E, 'send_and_parse', 'do! (if lp then (do! elm_normal_power; ret tt) else ret tt);', 'do! (if negb lp then (do! elm_normal_power; ret tt) else ret tt);', 'a query in low power mode does not wake the adapter (and one in normal mode does)', 'C91')
m('q02', E, 'elm_normal_power', 'do! set_low_power false;', 'do! ret tt;', 'the flag stays set after the wake-up', 'C91')
m('q03', E, 'elm_low_power', '(if existsb (text_eqb (str "OK")) lines then set_low_power true else ret tt)', '(if existsb (text_eqb (str "LP")) lines then set_low_power true else ret tt)', 'the acknowledgement is not recognised', 'C91')
m('q04', E, 'elm_init_opened', 'do! (if start_low_power then elm_write (str " ") else ret tt);', 'do! (if start_low_power then ret tt else elm_write (str " "));', 'start_low_power does the opposite', 'C92')
m('q05', E, 'elm_low_power', 'elm_send_gen (str "ATLP") true ELM_LP_ACTIVE', 'elm_send_gen (str "ATLS") true ELM_LP_ACTIVE', 'the wrong command puts the adapter to sleep', 'C91')
m('q06', O, 'obd_low_power', 'on_interface elm_low_power; ret tt', 'on_interface elm_normal_power; ret tt', 'low_power() wakes the adapter', 'C91')
m('q07', E, 'elm_normal_power', 'do lines <- elm_send (str " ") false;', 'do lines <- elm_send (str "ATZ") false;', 'the adapter is woken by a reset', 'C91')
# C93-C95
R = 'Repr'
m('r02', R, 'repr_char', 'if (c =? q) || (c =? 92) then [92; c]\n  else if c =? 9 then str "\\t"\n  else if c =? 10 then str "\\n"\n  else if c =? 13 then str "\\r"\n  else if (c <? 32) || (c =? 127)', 'if (c =? q) then [92; c]\n  else if c =? 9 then str "\\t"\n  else if c =? 10 then str "\\n"\n  else if c =? 13 then str "\\r"\n  else if (c <? 32) || (c =? 127)', 'backslashes are not escaped', 'C93')
m('r03', R, 'cmd_repr', '(if text_eqb (c_header c) ECU_HEADER_ENGINE then [] else str ", header=" ++ repr_bytes (c_header c))', '[]', 'the header is never printed', 'C93')
m('r04', R, 'cmd_repr', 'str_int (c_bytes c)', 'str_nat (Z.to_nat (c_bytes c))', 'a negative length is printed as 0', 'C93')
m('r05', R, 'repr_ecu', 'if e =? ECU_TRANSMISSION then str "ECU.TRANSMISSION"', 'if e =? ECU_TRANSMISSION then str "ECU.UNKNOWN"', 'the wrong constant', 'C93')
m('r06', R, 'cmd_str', 'repr_bytes (c_header c ++ c_command c) ++ str ": " ++ c_desc c', 'repr_bytes (c_command c) ++ str ": " ++ c_desc c', 'str() hides the header', 'C94')
m('r07', R, 'print_commands', 'concat (map (fun c => cmd_str c ++ [10]) order)', 'concat (map (fun c => cmd_str c ++ [32]) order)', 'all on one line', 'C94')
m('r08', P, 'm_raw', 'join [10] (map f_raw (m_frames m))', 'join [32] (map f_raw (m_frames m))', 'lines joined by a blank', 'C07, C95')
m('r09', P, 'protocol_call', "map (fun l => mkMessage [new_frame l] ECU_UNKNOWN []) non_obd_lines", "map (fun l => mkMessage [new_frame (no_spaces l)] ECU_UNKNOWN []) non_obd_lines", 'text lines lose their spaces', 'C07, C95')
m('r10', P, 'group_frame', 'Some l => dict_set oz_eqb d (f_tx_id f) (l ++ [f])', 'Some l => dict_set oz_eqb d (f_tx_id f) (f :: l)', 'lines in the reverse order', 'C95')
m('r11', P, 'm_hex', 'bytes_to_hex (m_data m)', 'bytes_to_hex (tl (m_data m))', 'hex() without the first byte', 'C95')
m('t01', E, 'read_again', 'else (do r <- elm_read marker; read_again k marker r)', 'else (do! elm_write (str " "); do r <- elm_read marker; read_again k marker r)', 'a blank line is written before every further attempt to read (it repeats the request)', 'C45, C96')
m('t02', E, 'read_again', 'if nonempty r then ret r else', 'if negb (nonempty r) then ret r else', 'reads again when there are lines, and not when there are none', 'C96')
m('t03', O, 'set_header', 'if negb (text_eqb (join [10] (map m_raw ms)) (str "OK")) then ret tt', 'if text_eqb (join [10] (map m_raw ms)) (str "OK") then ret tt', 'a header is recorded when it is refused, and not when it is acknowledged', 'C48, C98')
m('t04', O, 'set_header', 'else set_last_header h', 'else set_last_header ECU_HEADER_ENGINE', 'the engine header is recorded whatever header was set', 'C48, C98')
m('t05', O, 'set_header', '| None | Some [] => ret tt\n    | Some ms =>', '| None | Some [] => set_last_header h\n    | Some ms =>', 'a header is recorded also if nothing came back', 'C48')
m('t06', E, 'read_loop', '| Some [] :: rest => (Some buffer, rest, [EvRead (Some [])])', '| Some [] :: rest => (Some [], rest, [EvRead (Some [])])', 'what was read before a time-out is thrown away', 'C34')
PT = 'Print'
m('g01', PT, 'str_status_test', 'if st_complete t then str "Complete" else str "Incomplete"', 'if st_complete t then str "Incomplete" else str "Complete"', 'Complete and Incomplete swapped', 'C99')
m('g02', PT, 'str_status_test', 'if st_available t then str "Available"', 'if st_complete t then str "Available"', 'availability printed from the other bit', 'C99')
m('g03', PT, 'str_mtest', 'if test_passed t then', 'if negb (test_is_null t) then', 'every test that has a result is printed as passed', 'C99')
m('g04', PT, 'str_mtest', 'show_text (t_desc t)', 'show_text (t_name t)', 'the name instead of the description', 'C99')
m('g05', PT, 'str_monitor', 'join [10] (map (str_mtest showq) (monitor_tests m))', 'join [10] (map (str_mtest showq) (map snd (mon_tests m)))', 'tests without a result are printed too', 'C99')
m('g06', PT, 'len_monitor', 'Z.of_nat (length (monitor_tests m)).', 'Z.of_nat (length (mon_tests m)).', 'len() counts tests without a result', 'C99')
m('g07', PT, 'str_monitor', 'if 0 <? Z.of_nat', 'if 1 <? Z.of_nat', 'a single test is not reported', 'C99')
m('g08', PT, 'response_unit', '| VNone => None\n', '| VNone | VBits _ => None\n', 'no unit for bit arrays', 'C99')
m('g09', D, 'monitor_tests', 'filter (fun t => negb (test_is_null t)) (map snd (mon_tests m))', 'filter (fun t => negb (test_is_null t)) (rev (map snd (mon_tests m)))', 'tests in the reverse order', 'C99')
m('g10', PT, 'str_monitor', 'join [10]', 'join [44]', 'tests separated by commas', 'C99')
# batch h: decoding, tables
UT = 'UasTable'
CO = 'Codes'
CT = 'CommandTable'
CS = 'Commands'
PY = 'Py'
SC = 'Scan'
m('h01', UT, 'UAS_IDS', '(42, UAS false (LDec (1) 1000) (str "kilogram / hour")', '(42, UAS false (LDec (1) 100) (str "kilogram / hour")', 'wrong scale of one id', 'C23')
m('h02', CO, 'FUEL_TYPES', '  (str "Methanol");\n  (str "Ethanol");', '  (str "Ethanol");\n  (str "Methanol");', 'two fuels swapped', 'C27')
m('h03', D, 'dec_temp', '(PyInt 40)) "celsius"', '(PyInt 50)) "celsius"', 'wrong offset', 'C24')
m('h04', D, 'dec_sensor_voltage', '(PyInt v) (F 200 1)) "volt"', '(PyInt v) (F 100 1)) "volt"', 'wrong divisor', 'C24')
m('h05', D, 'dec_evap_pressure_alt', '(PyInt 32767)) "pascal"', '(PyInt 32768)) "pascal"', 'offset one too large', 'C24')
m('h06', D, 'dec_max_maf', '(PyInt 10)) "gps"', '(PyInt 10)) "kilopascal"', 'wrong unit', 'C24')
m('h07', D, 'dec_single_dtc', "let! r := parse_dtc false d in\n  match r with", "let! r := parse_dtc true d in\n  match r with", 'a freeze code of 0 is no code', 'C22')
m('h08', D, 'monitor_blocks', "monitor_blocks k (from 9 d)", "monitor_blocks k (from 8 d)", 'blocks overlap', 'C28')
m('h09', D, 'add_test', "dict_set text_eqb (mon_names m) n t", "mon_names m", 'a test is not found by its name', 'C28')
m('h10', D, 'string_padding', "[0; 1; 2; 92; 120; 48; 49; 50]", "[0; 1; 2]", 'only the bytes 0, 1, 2 are stripped', 'C30 (the exact form; the bug of the code is gone)')
m('h11', CT, 'mode1', '(str "010C") 4 (D_uas 7)', '(str "010C") 3 (D_uas 7)', 'RPM has a data length of one byte', 'C67, C24, C86')
m('h12', CT, 'mode3', '(str "03") 0 D_dtc ECU_ALL false', '(str "03") 0 D_dtc ECU_ENGINE false', 'GET_DTC listens to the engine only', 'C68, C31')
m('h13', CT, 'mode1', '(str "0105") 3 D_temp', '(str "0104") 3 D_temp', 'COOLANT_TEMP asks for another PID', 'C63, C86')
m('h14', CT, 'mode3', '(str "03") 0 D_dtc ECU_ALL false', '(str "03") 0 D_dtc ECU_ALL true', 'GET_DTC may be limited', 'C46, C86')
m('h15', CS, 'base_commands', '[str "PIDS_A"; str "PIDS_9A";', '[str "PIDS_A";', 'one base command is missing', 'C49')
m('h16', CS, 'has_name', 'isupper s && (dict_mem', '(dict_mem', 'isupper is not tested (only "modes" is then accepted too)', 'C63')
m('h17', CS, 'get_mode', 'if 0 <=? mode then get modes (Z.to_nat mode)', 'if 0 <? mode then get modes (Z.to_nat mode)', 'commands[0] is the last mode', 'C63')
m('h18', C, 'cmd_hash_key', 'c_header c ++ c_command c', 'c_command c ++ c_name c', 'the hash uses the name', 'C17')
m('h19', U, 'hexdigit', 'else 87 + d', 'else 55 + d', 'upper-case digits', 'C33')
m('h20', U, 'num_cleared', 'zlen (filter negb a)', 'zlen a', 'counts all bits', 'C32')
m('h21', D, 'null_test', 'mkTest None None None None None None', 'mkTest (Some 0) None None None None None', 'the null test has an id', 'C28')
m('h22', D, 'monitor_get_name', '| None => null_test end.\n(* comparison', '| None => match mon_names m with (_, t) :: _ => t | [] => null_test end end.\n(* comparison', 'an unknown name gives the first test', 'C28')
m('h23', PY, 'uspace', '((9 <=? c) && (c <=? 13)) || ((28 <=? c) && (c <=? 32)) || (c =? 133)', '((9 <=? c) && (c <=? 13)) || ((28 <=? c) && (c <=? 31)) || (c =? 133)', 'strip() leaves blanks', 'C35')
m('h24', PY, 'split_crlf', 'if (c =? 13) || (c =? 10) then', 'if (c =? 13) then', 'split at carriage returns only', 'C35')
m('h25', P, 'tx_id_transmission', 'FCan _ => Some 1 end', 'FCan _ => Some 2 end', 'wrong id of the transmission', 'C13')
m('h26', P, 'order_byte', 'get (f_data f) 2', 'get (f_data f) 1', 'frames ordered by another byte', 'C10')
m('h27', P, 'initial_map', "| Some _ => dict_set oz_eqb m (tx_id_transmission c) ECU_TRANSMISSION\n", "| Some _ => dict_set oz_eqb m (tx_id_transmission c) ECU_ENGINE\n", 'the transmission is taken for an engine', 'C13, C67')
m('h28', P, 'SAE_J1939', '(str "A") (FCan 29)', '(str "B") (FCan 29)', 'wrong id of a protocol', 'C38')
m('h29', P, 'ISO_15765_4_29bit_250k', '(str "9") (FCan 29)', '(str "9") (FCan 11)', 'protocol 9 is read as an 11-bit protocol', 'C108')
m('h30', P, 'most_bits', 'if fst st <? bits then', 'if fst st <=? bits then', 'the last of equal ECUs wins', 'C13')
# batch i: sessions
m('i01', E, 'try_protocol_order', 'str "2"; str "3"; str "4"; str "5"; str "A"]', 'str "2"; str "3"; str "4"; str "5"]', 'J1939 is never tried', 'C40')
m('i02', E, 'try_bauds', '[38400; 9600; 230400;', '[9600; 38400; 230400;', 'another order of baud rates', 'C39')
m('i03', E, 'retries', 'wait_steps 100 (if delay then', 'wait_steps 100 (if negb delay then', 'no further attempts without a delay', 'C42')
m('i04', E, 'set_baudrate', 'startswith (str "/dev/pts") name', 'startswith (str "/dev/pt") name', 'another prefix', 'C39')
m('i05', E, 'manual_protocol', '(str "ATTP" ++ id) false', '(str "ATSP" ++ id) false', 'ATSP in place of ATTP', 'C38')
m('i06', E, 'UNABLE', '"UNABLE TO CONNECT"', '"UNABLE"', 'a shorter message is taken for a refusal', 'C40, C38')
m('i07', E, 'try_each_baud', 'then (do! set_timeout old_timeout; ret true)', 'then ret true', 'the timeout is not restored', 'C39')
m('i08', O, 'set_add', 'if in_set c l then l else l ++ [c]', 'l ++ [c]', 'a set with repetitions', 'C82 or none')
m('i09', O, 'supports', 'in_set c (o_supported o)', 'has_command c', 'supports() tells which commands exist', 'C44, C82')
m('i10', O, 'load_commands', 'if negb (status_eqb st CAR_CONNECTED) then', 'if status_eqb st NOT_CONNECTED then', 'commands are loaded without a car', 'C49')
m('i11', O, 'close_if_failed', 'if status_eqb st NOT_CONNECTED then obd_close else ret tt', 'ret tt', 'a failed interface is kept', 'C50, C72')
m('i12', O, 'count_frames', '(length (m_frames m) + n)', '(S n)', 'messages are counted', 'C46, C89')
m('i13', O, 'initial_obd', 'ECU_HEADER_ENGINE []', '[] []', 'no header is recorded at first', 'C48, C87')
m('i14', SC, 'glob_dev', '(hidden || negb (startswith (str ".") n)) && fnmatch p n', 'fnmatch p n', 'hidden entries match too (no pattern here starts with a wildcard: an equivalent program)', 'none')
m('i15', SC, 'possible_ports', 'map GChar (str "ttyUSB") ++ [GDigit; GStar]', 'map GChar (str "ttyUSB") ++ [GDigit]', 'ports above 9 are not found', 'C76')
m('i16', SC, 'try_port', 'if negb (n =? ENOENT)', 'if (n =? ENOENT)', 'the wrong error is ignored', 'C76')
m('i17', SC, 'possible_ports', 'str "/dev/tty.Bluetooth-Modem"', 'str "/dev/tty.Bluetooth-Modem1"', 'the second exclusion does not work', 'C76')
m('i18', E, 'elm_low_power', 'if status_eqb s NOT_CONNECTED then ret None\n  else\n    do lines <- elm_send_gen', 'if status_eqb s ELM_CONNECTED then ret None\n  else\n    do lines <- elm_send_gen', 'low_power() refuses in the wrong state', 'C36, C41')
m('i19', O, 'obd_port_name', 'match o_interface o with None => [] | Some e => elm_port_name e end', '[]', 'port_name() is always empty', 'C72, C51')
m('i20', O, 'enable_bits', 'enable_bits mode (pid + 1) t (if b then enable_pid mode (pid + 1) l else l)', 'enable_bits mode (pid + 1) t (if b then enable_pid mode pid l else l)', 'bits shifted by one', 'C49')
# batch j: definitions no earlier edit touched
m('j01', 'Py', 'strip_by', 'rev (drop_while f (rev (drop_while f l)))', 'drop_while f l', 'strip() only strips on the left', 'C34')
m('j02', 'Py', 'int16', 'match s with [] => Raise ValueError | _ => int16_from 0 s end', 'int16_from 0 s', 'int of an empty text is 0', 'C18 or none')
m('j03', 'Py', 'int16_from', 'int16_from (acc * 16 + d) t', 'int16_from (acc + d) t', 'int(s, 16) adds the digits', 'C18, C49')
m('j04', 'Py', 'unhexlify', 'Ok (x * 16 + y :: r)', 'Ok (y * 16 + x :: r)', 'nibbles swapped', 'C02, C10')
m('j05', 'Py', 'unhexlify', '| [_] => Raise ValueError', '| [_] => Ok []', 'an odd digit is dropped (equivalent: odd lines are dropped before)', 'none')
m('j06', 'Py', 'utf8_ignore', 'if b <? 128 then b :: utf8_ignore t', 'if b <? 127 then b :: utf8_ignore t', 'DEL is dropped', 'C34, C95')
m('j07', 'Py', 'uint_text', '| Decimal.D7 u => 55 :: uint_text u', '| Decimal.D7 u => 49 :: uint_text u', 'a 7 is written as a 1', 'C46, C89')
m('j08', 'Num', 'float_of_ratio', '(if a mod b =? 0 then 0 else 1)', '0', 'no sticky bit', 'C66')
m('j09', 'Num', 'num_mul', 'PyInt (a * b) | _, _', 'PyInt (a + b) | _, _', 'product of ints', 'C24')
m('j10', 'Num', 'num_le', 'PyInt a, PyInt b => a <=? b', 'PyInt a, PyInt b => a <? b', '<= of ints is strict', 'C29')
m('j11', 'Num', 'underscores_ok', 'if c =? 95 then prev_digit && ', 'if c =? 95 then ', 'underscores anywhere before a digit', 'C66')
m('j12', 'Num', 'take_sign', 'if c =? 45 then (true, t)', 'if c =? 45 then (false, t)', 'the sign is lost', 'C66')
m('j13', 'Num', 'digits_value', 'a * 10 + (c - 48)', 'a * 10 + (c - 47)', 'digits one too big', 'C66')
m('j14', 'Num', 'scaled', 'float_of_ratio s m (10 ^ (- e))', 'float_of_ratio s m (2 ^ (- e))', 'binary fractions', 'C66')
m('j15', 'Utils', 'bin_digits', 'if b <=? 1 then (b =? 1) :: acc', 'if b <=? 1 then (b =? 0) :: acc', 'the leading bit is wrong', 'C32, C25')
m('j16', 'Utils', 'int2', '2 * v + (if b then 1 else 0)', '2 * v + (if b then 0 else 1)', 'bits negated', 'C33, C20, C32')
m('j17', 'Utils', 'ba_iter', 'Definition ba_iter (a : bitarray) : list bool := a.', 'Definition ba_iter (a : bitarray) : list bool := rev a.', 'iteration backwards', 'C49, C32')
m('j18', 'Utils', 'hex_digits', 'if b <=? 15 then hexdigit b :: acc', 'if b <=? 16 then hexdigit b :: acc', 'hex of 16', 'C32, C95')
m('j19', 'Utils', 'ba_len', 'Definition ba_len (a : bitarray) : Z := zlen a.', 'Definition ba_len (a : bitarray) : Z := zlen a / 8.', 'len() counts bytes', 'C32')
m('j20', 'Protocol', 'FRAME_TYPE_CF', 'FRAME_TYPE_CF := 32', 'FRAME_TYPE_CF := 48', 'flow control frames taken for consecutive frames', 'C01')
m('j21', 'Protocol', 'parse_message', '| FUnknown => Ok (Some [])', '| FUnknown => Ok None', 'no messages with an unknown protocol', 'C07')
m('j22', 'Protocol', 'SAE_J1850_VPW', '(str "2") FLegacy', '(str "1") FLegacy', 'protocol_id() of another protocol', 'C72')
m('j23', 'Protocol', 'ISO_9141_2', 'mkClass (str "ISO 9141-2")', 'mkClass (str "ISO 9141")', 'protocol_name() is wrong', 'C72')
m('j24', 'Protocol', 'new_protocol', 'Ok (mkProtocol c m1)', 'Ok (mkProtocol c m0)', 'the map of ECUs is not kept', 'C13, C77')
m('j25', 'Decoders', 'body', 'Ok (from 2 (m_data m))', 'Ok (from 1 (m_data m))', 'echo not stripped', 'C24, C25')
m('j26', 'Decoders', 'dec_raw_string', 'join [10] (map m_raw messages)', 'join [13] (map m_raw messages)', 'joined with carriage returns', 'C95, C81, C30')
m('j27', 'Decoders', 'dec_count', 'PyInt (bytes_to_int d)) "count"', 'PyInt (bytes_to_int (rev d))) "count"', 'little endian', 'C24, C81')
m('j28', 'Decoders', 'dec_timing_advance', '(PyInt 128)) (F 2 1)) "degree"', '(PyInt 64)) (F 2 1)) "degree"', 'wrong offset', 'C24')
m('j29', 'Decoders', 'dec_abs_evap_pressure', '(F 200 1)) "kilopascal"', '(F 100 1)) "kilopascal"', 'wrong scale', 'C24')
m('j30', 'Decoders', 'dec_fuel_status', 'if negb (nonempty s1) && negb (nonempty s2)', 'if negb (nonempty s1) || negb (nonempty s2)', 'None if either is unknown', 'C27')
m('j31', 'Decoders', 'dec_fuel_type', 'if i <? zlen FUEL_TYPES then', 'if i <? zlen FUEL_TYPES - 1 then', 'the last fuel is missing', 'C27')
m('j32', 'Decoders', 'initial_tests', '(BASE_TESTS ++ SPARK_TESTS ++ COMPRESSION_TESTS) []', '(BASE_TESTS ++ SPARK_TESTS) []', 'diesel tests missing', 'C26')
m('j33', 'Decoders', 'monitor_get_tid', 'Some t => t | None => null_test end.\nDefinition monitor_get_name', 'Some t => null_test | None => null_test end.\nDefinition monitor_get_name', 'lookup by test id always gives the null test', 'C28')
m('j34', 'Decoders', 'dec_encoded_string', 'match r with Some d => Ok (VBytes d) | None => Ok VNone end.\n(* decoders.py:511', 'match r with Some d => Ok (VBytes (rev d)) | None => Ok VNone end.\n(* decoders.py:511', 'text reversed', 'C30')
m('j35', 'Command', 'c_mode', 'int16 (upto 2 (c_command c))', 'int16 (upto 1 (c_command c))', 'mode is the first digit', 'C18')
m('j36', 'Commands', 'mode2', 'map (option_map to_mode2) mode1', 'map (option_map to_mode2) mode9', 'freeze frame commands of mode 9', 'C18, C86')
m('j37', 'Commands', 'all_commands', 'somes (List.concat modes) ++ somes misc', 'somes (List.concat modes)', 'ELM_VERSION and ELM_VOLTAGE are missing', 'C63, C86')
m('j38', 'Commands', 'commands_len', 'fold_left (fun n m => n + zlen m) modes 0', 'fold_left (fun n m => n + zlen (somes m)) modes 0', 'len() does not count the gaps', 'C64')
m('j39', 'Commands', 'pid_getters', 'filter (fun c => is_pid_decoder (c_decode c)) (somes m)) modes', 'filter (fun c => is_pid_decoder (c_decode c)) (somes m)) (firstn 3 modes)', 'mode 06 and 09 lists not queried', 'C49')
m('j40', 'Elm', 'baud_probe', 'port_write true [127; 127; 13] w', 'port_write true [13] w', 'another probe', 'C39')
m('j41', 'Elm', 'auto_baudrate', 'try_each_baud (pt_timeout p) try_bauds', 'try_each_baud t try_bauds', 'the probe timeout stays', 'C39')
m('j42', 'Elm', 'instantiate', 'set_protocol_obj (Some p)', 'ret tt', 'the protocol object is not kept', 'C38, C72')
m('j43', 'Elm', 'try_protocols', 'if negb (has_message r0100 UNABLE) then (do! instantiate p r0100; ret true) else try_protocols t', 'if negb (has_message r0100 UNABLE) then (do! instantiate p r0100; ret true) else ret false', 'only one protocol is tried', 'C40')
m('j44', 'Elm', 'set_protocol', 'if negb (dict_mem text_eqb supported_protocols id) then ret false else manual_protocol id', 'if negb (dict_mem text_eqb supported_protocols id) then auto_protocol else manual_protocol id', 'an unknown protocol falls back to the automatic search', 'C38')
m('j45', 'Elm', 'new_elm', 'mkPort portname 9600 10000', 'mkPort portname 38400 10000', 'opened at another rate', 'C39')
m('j46', 'Obd', 'load_one', 'enable_bits mode pid (ba_iter bits) l', 'enable_bits mode 0 (ba_iter bits) l', 'all lists start at 0', 'C49, C82')
m('j47', 'Obd', 'connect', '| _ => do! connect_scan cf scan; close_if_failed', '| _ => do! connect_scan cf scan', 'a failed interface is kept after a scan', 'C50, C72, C76')
m('j48', 'Obd', 'obd_normal_power', 'do! on_interface elm_normal_power; ret tt end', 'do! on_interface elm_low_power; ret tt end', 'normal_power() sends to sleep', 'C41, C92')
m('j49', 'Obd', 'new_obd', 'do! connect cf portstr scan; load_commands', 'connect cf portstr scan', 'the supported commands are not asked', 'C49, C77')
m('j50', 'Async', 'list_remove', 'if y =? x then t else y :: list_remove x t', 'if y =? x then list_remove x t else y :: list_remove x t', 'all equal callbacks removed', 'C54, C55, C57')
m('j51', 'Async', 'alive', 'match t with T_new | T_done', 'match t with T_done', 'a thread not yet started counts as alive', 'C53, C56')
m('j52', 'Async2', 'give_back', '(a_threads s1) (a_obd s1) (a_world s1)\n      (a_pc s)', '(a_threads s1) (a_obd s) (a_world s1)\n      (a_pc s)', "a callback's call loses its effect on the connection", 'C75, C73')
# rerun of edits no theorem noticed at the time
m('j53', 'Protocol', 'm_hex', 'bytes_to_hex (m_data m)', 'bytes_to_hex (tl (m_data m))', 'hex() without the first byte', 'C95')
m('j54', 'Obd', 'is_connected', 'status_eqb (obd_status o) CAR_CONNECTED', 'negb (status_eqb (obd_status o) NOT_CONNECTED)', 'any connection counts', 'C72, C80, C90')
m('j55', 'Decoders', 'dec_elm_voltage', 'remove_char 118 (lower (f_raw f))', 'lower (f_raw f)', 'the V is not removed', 'C66')
m('j56', 'Decoders', 'dec_cvn', 'decode_encoded_string 4', 'decode_encoded_string 5', 'CVN needs five bytes', 'C30, C31')
# the update loop and the counts (C90, C100, C101)
m('j57', 'Obd', 'build_command_string', '| Some n => s ++ str_nat n', '| Some n => s', 'no count is sent', 'C100, C46')
m('j58', 'Async', 'thread_step', 'query c true (a_obd s, a_world s)', 'query c false (a_obd s, a_world s)', 'the update loop does not force its queries', 'C60, C61, C80')
m('j59', 'Async', 'thread_step', 'Ok r => T_store c r it | Raise e => T_dead e', 'Ok r => T_cbs c r it | Raise e => T_dead e', 'the answer is not stored', 'C55, C60')
m('j60', 'Async', 'thread_step', '| T_call c r [] it => Some (set_tpc i (T_next it) s)', '| T_call c r [] it => Some (set_tpc i T_sleep s)', 'only the first command is served', 'C80, C59')
m('j61', 'Obd', 'build_command_string', 'if o_fast o && text_eqb s (o_last_command o) then [] else s', 'if text_eqb s (o_last_command o) then [] else s', 'blank lines with fast=False too', 'C47, C90, C87')
# definitions not edited so far
m('m01', 'Async', 'finish', 'upd_pc M_idle (add_event', 'upd_pc (a_pc s) (add_event', 'a call never ends', 'C56, C80, C53')
m('m02', 'Async', 'ended', 'Some T_done => true | Some (T_dead _) => true', 'Some T_done => true', 'join() waits for ever for a thread that raised', 'C80, C56')
m('m03', 'Async', 'new_async', 'mkA [] [] O false false None', 'mkA [] [] O true false None', 'running from the start', 'C53, C56')
m('m04', 'Async', 'async_connected', 'is_connected (a_obd s)', 'true', 'start() does not look at the connection', 'C56, C62, C53')
m('m05', 'Async2', 'came', '[(i, o, out)]', '[(O, o, out)]', "the results of callbacks' calls all go to the first thread", 'C75, C73')
m('m06', 'Async2', 'cb_step', 'ORaised RuntimeError', 'ODone', 'join() of the own thread returns', 'C73')
m('m07', 'Codes', 'FUEL_STATUS', '(str "Open loop due to system failure")', '(str "Open loop due to insufficient engine temperature")', 'a wrong text', 'C28, C86')
m('m08', 'Codes', 'IGNITION_TYPE', '(str "spark");\n  (str "compression")', '(str "compression");\n  (str "spark")', 'swapped', 'C26')
m('m09', 'Codes', 'OBD_COMPLIANCE', '(str "OBD as defined by the EPA");\n  (str "OBD and OBD-II");', '(str "OBD and OBD-II");\n  (str "OBD as defined by the EPA");', 'swapped', 'C28, C86')
m('m10', 'Codes', 'BASE_TESTS', 'Some (str "MISFIRE_MONITORING");\n  Some (str "FUEL_SYSTEM_MONITORING");', 'Some (str "FUEL_SYSTEM_MONITORING");\n  Some (str "MISFIRE_MONITORING");', 'swapped', 'C26')
m('m11', 'Codes', 'SPARK_TESTS', 'Some (str "CATALYST_MONITORING");\n  Some (str "HEATED_CATALYST_MONITORING");', 'Some (str "HEATED_CATALYST_MONITORING");\n  Some (str "CATALYST_MONITORING");', 'swapped', 'C26')
m('m12', 'Codes', 'COMPRESSION_TESTS', 'Some (str "NMHC_CATALYST_MONITORING");\n  Some (str "NOX_SCR_AFTERTREATMENT_MONITORING");', 'Some (str "NOX_SCR_AFTERTREATMENT_MONITORING");\n  Some (str "NMHC_CATALYST_MONITORING");', 'swapped', 'C26')
m('m13', 'Codes', 'TEST_IDS', '(2, ((str "LTR_THRESHOLD_VOLTAGE")', '(2, ((str "RTL_THRESHOLD_VOLTAGE")', 'two tests with one name', 'C27, C86')
m('m14', 'CommandTable', 'mode4', '(str "04") 0 D_drop', '(str "03") 0 D_drop', 'CLEAR_DTC asks for the codes', 'C17, C16, C63')
m('m15', 'CommandTable', 'mode6', '(str "0602") 0 D_monitor', '(str "0601") 0 D_monitor', 'two monitors with one request', 'C17, C63')
m('m16', 'CommandTable', 'mode7', '(str "07") 0 D_dtc', '(str "07") 0 D_single_dtc', 'the wrong decoder', 'C20, C68')
m('m17', 'CommandTable', 'mode9', '(str "0902") 22', '(str "0902") 20', 'a VIN that is two bytes short', 'C30, C81')
m('m18', 'CommandTable', 'misc', '(str "ATI")', '(str "ATZ")', 'ELM_VERSION resets the adapter', 'C72, C87, C95')
m('m19', 'Commands', 'has_command', 'existsb (fun c\' => cmd_eqb c\' c) (map snd by_name)', 'dict_mem text_eqb by_name (c_name c)', 'by name', 'C64')
m('m20', 'Commands', 'get_pid', 'nth (Z.to_nat pid)', 'nth (S (Z.to_nat pid))', 'the next one', 'C64, C63')
m('m21', 'Commands', 'isupper', '&& negb (existsb (fun c => (97 <=? c) && (c <=? 122)) s)', '', 'some capital letter suffices', 'C64')
m('m22', 'Decoders', 'dec_drop', 'Ok VNone', 'Ok (VBool true)', 'a value for CLEAR_DTC', 'C22, C31, C69')
m('m23', 'Decoders', 'dec_noop', 'VBytes (m_data m)', 'VBytes (tl (m_data m))', 'without the first byte', 'C15')
m('m24', 'Decoders', 'dec_pid', 'VBits (ba_of d)', 'VBits (tl (ba_of d))', 'without the first bit', 'C25, C49')
m('m25', 'Decoders', 'dec_pressure', 'let! v := get d 0', 'let! v := get d 1', 'the second byte', 'C24')
m('m26', 'Decoders', 'null_status_test', '(Some []) false false', '(Some []) true true', 'tests are available unless said otherwise', 'C26')
m('m27', 'Decoders', 'test_is_null', '| Some _, Some _, Some _, Some _ => false', '| Some _, Some _, _, _ => false', 'tests without limits count', 'C27')
m('m28', 'Decoders', 'tval_le', '| TQty x _, TQty y _ => num_le x y', '| TQty x _, TQty y _ => num_lt x y', 'strict', 'C27')
m('m29', 'Decoders', 'is_pid_decoder', 'D_pid => true', 'D_pid | D_status => true', 'STATUS counts as a listing', 'C49, C50')
m('m30', 'Elm', 'wait_steps', 'flt delayed (float_of_Z 1)', 'fle delayed (float_of_Z 1)', 'one more try', 'C34, C35')
m('m31', 'Elm', 'has_message', 'existsb (contains s) lines', 'forallb (contains s) lines', 'every line', 'C37, C38, C41')
m('m32', 'Elm', 'elm_read', '| None => (Ok [], (e, w))', '| None => (Raise AttributeError, (e, w))', 'reading without a port raises', 'C36, C43')
m('m33', 'Elm', 'supported_protocols', '(str "7", ISO_15765_4_29bit_500k);\n    (str "8", ISO_15765_4_11bit_250k)', '(str "7", ISO_15765_4_11bit_250k);\n    (str "8", ISO_15765_4_29bit_500k)', 'swapped', 'C38, C40, C77')
m('m34', 'Elm', 'elm_error', 'elm_close', 'set_status NOT_CONNECTED', 'the port stays open', 'C37, C79, C78')
m('m35', 'Elm', 'set_timeout', 'emit (EvTimeout t) w', 'w', 'the time-out is not set', 'C42')
m('m36', 'Elm', 'set_baud', 'else (Raise SerialError, (e, w))', 'else (Ok tt, (e, w))', 'a failure to set the baud rate is ignored', 'C42, C37')
m('m37', 'Num', 'num_div', 'fdiv (to_float x) (to_float y)', 'fmul (to_float x) (to_float y)', 'multiplies', 'C24, C23')
m('m38', 'Num', 'num_sub', 'PyInt (a - b)', 'PyInt (b - a)', 'swapped', 'C24')
m('m39', 'Num', 'take_digits', 'if is_digit c then', 'if is_digit c && negb (c =? 57) then', 'no nines', 'C66')
m('m40', 'Num', 'is_digit', '(c <=? 57)', '(c <=? 56)', 'no nines', 'C66')
m('m41', 'Num', 'to_ascii_digit', '48 + (c - z)', '49 + (c - z)', 'off by one', 'C66')
m('m42', 'Num', 'py_float', 'if c =? 46 then take_digits t', 'if c =? 44 then take_digits t', 'a decimal comma', 'C66')
m('m43', 'Obd', 'in_set', "existsb (fun c' => cmd_eqb c' c) l", "existsb (fun c' => text_eqb (c_command c') (c_command c)) l", 'the header does not count', 'C48, C82')
m('m44', 'Obd', 'load_all', 'do! load_one g; load_all t', 'do! load_all t; load_one g', 'in the opposite order', 'C49, C50')
m('m45', 'Obd', 'connect_port', '(o_timeout o)', '0', 'no time-out', 'C42, C51')
m('m46', 'Obd', 'obd_status', 'None => NOT_CONNECTED', 'None => ELM_CONNECTED', 'connected after close()', 'C43, C44, C51')
m('m47', 'Py', 'startswith', '| [], _ => true', '| [], _ :: _ => true | [], [] => false', 'a text does not start with itself', 'C37, C38, C40')
m('m48', 'Py', 'join', 'p ++ sep ++ join sep t', 'p ++ join sep t', 'no separator', 'C95, C48')
m('m49', 'Py', 'insert_by', 'key x <=? key y', 'key y <=? key x', 'in descending order', 'C06, C10, C14')
m('m50', 'Py', 'bspace', '|| (c =? 32)', '', 'blanks stay', 'C34')
m('m51', 'Py', 'lower', 'c + 32', 'c + 31', 'the wrong letter', 'C66, C41')
m('m52', 'Py', 'dict_set', "if eqb k' k then (k', v) :: t", "if eqb k' k then (k', v') :: t", 'the first value stays', 'C27, C55, C60')
m('m53', 'Py', 'dict_pop', "if eqb k' k then t", "if eqb k' k then dict_pop t k", 'all entries (there is one)', 'none (equivalent)')
m('m54', 'Py', 'text_leb', '(x <? y)', '(x <=? y)', 'only the first character counts', 'C51, C78')
m('m55', 'Protocol', 'pop_at', 'skipn (S i) l', 'skipn i l', 'nothing is removed', 'C05, C12')
m('m56', 'Protocol', 'm_tx_id', 'f :: _ => f_tx_id f', 'f :: _ => f_rx_id f', 'the receiver', 'C12, C13')
m('m57', 'Protocol', 'm_parsed', 'nonempty (m_data m)', 'nonempty (m_frames m)', 'unparsed messages count', 'C13')
m('m58', 'Protocol', 'parse_frame', '| FLegacy => legacy_parse_frame line', '| FLegacy => can_parse_frame 11 line', 'as CAN', 'C01, C08')
m('m59', 'Protocol', 'log_map', 'Raise TypeError', 'Ok tt', 'no TypeError for the unknown protocol', 'C12, C77')
m('m60', 'Protocol', 'no_spaces', 'remove_char 32 line', 'line', 'spaces stay', 'C01, C02')
m('m61', 'Utils', 'ba_get', '(0 <=? key) && (key <? zlen a)', '(key <? zlen a)', 'negative indices give the first bit', 'C33, C32')
m('m62', 'Utils', 'ba_slice', 'slice lo hi a', 'slice lo (S hi) a', 'one more bit', 'C32, C25, C33')
m('m63', 'Utils', 'num_set', 'count_true a', 'zlen a', 'all bits', 'C32, C33')
m('m64', 'Utils', 'status_text', '| OBD_CONNECTED => str "OBD Connected"', '| OBD_CONNECTED => str "Car Connected"', 'two states with one text', 'C51')
m('m65', 'Utils', 'pairs', 'combine l (tl l)', 'combine l l', 'each with itself', 'C05, C33')
m('m66', 'Fine', 'f_read', 'None => let*! f_io_failure; pure []', 'None => pure []', 'a failed read does not close the port', 'C83')
m('m67', 'Fine', 'f_elm_normal_power', 'let*! elm_ (set_low_power false);', '', 'stays in low power', 'C83, C84')
m('m68', 'Fine', 'f_elm_close', 'let*! elm_ (set_protocol_obj None);', '', 'the protocol stays', 'C83')
m('m69', 'Fine', 'f_obd_close', 'let*! f_set_header ECU_HEADER_ENGINE;', '', 'the header is not reset', 'C83')
m('m70', 'Look', 'lstep', '| Some _, FMain | Some _, FPower _ => l', '| Some _, FPower _ => l', 'looks and other calls of the same thread overlap', 'C85')
m('m71', 'Repr', 'repr_quote', 'then 34 else 39', 'then 39 else 34', 'the wrong quotes', 'C93, C94')
m('m72', 'Repr', 'repr_byte', '(127 <=? c)', '(127 <? c)', 'DEL is not escaped', 'C93, C94')
m('m73', 'Repr', 'str_int', 'if n <? 0 then 45 ::', 'if n <? 0 then', 'no minus sign', 'C93')
m('m74', 'Print', 'show_bool', 'str "True" else str "False"', 'str "False" else str "True"', 'swapped', 'C99')
m('m75', 'Scan', 'scan_serial', 'try_ports m (possible_ports m) []', 'try_ports m (tl (possible_ports m)) []', 'the first port is skipped', 'C76')
m('m76', 'World', 'port_write', '| WFailBefore => (false, emit EvFail w)', '| WFailBefore => (true, emit EvFail w)', 'the program does not notice', 'C36, C43')
m('m77', 'Elm', 'elm_port_name', 'Some p => pt_name p', 'Some p => []', 'no name', 'C51, C72, C40')
m('m78', 'Elm', 'elm_protocol_id', 'pc_id (p_class p)', 'pc_name (p_class p)', 'the name', 'C51, C38')
# the port's input buffer, and Async objects with a slow adapter (C103)
m('n01', 'Elm', 'elm_write', 'port_write true (cmd ++ [13])', 'port_write false (cmd ++ [13])', 'flushInput() is left out', 'C96, C87, C103')
m('n02', 'Elm', 'baud_probe', 'port_write true [127; 127; 13] w', 'port_write false [127; 127; 13] w', 'flushInput() is left out', 'C40')
# C104
m('n03', 'Timed', 'sleeps', 'T_sleep => d', 'T_sleep => 0', 'delay_cmds is ignored', 'C104')
m('n04', 'Timed', 'sleeps', 'T_sleep => d', 'T_sleep | T_while => d', 'sleeps twice', 'C104')
m('n05', 'Timed', 'sleeps', 'T_sleep => d', 'T_sleep | T_next _ => d', 'sleeps after every command', 'C104')
m('n06', 'Timed', 'sleeps', 'T_sleep => d', 'T_sleep => 250000', 'the default, whatever delay_cmds is', 'C104')
m('n07', 'Async', 'thread_step', '| [] => set_tpc i T_sleep s', '| [] => set_tpc i T_while s', 'no sleep after a round', 'C104, C55')
m('n08', 'Timed', 'tstep', 'tm_wake t i then', 'tm_wake t 0%nat then', "the threads wait for the first one's sleep", 'C104')
m('n10', CT, 'mode7', '(str "07") 0 D_dtc ECU_ALL false', '(str "07") 0 D_dtc ECU_ALL true', 'GET_CURRENT_DTC may be limited', 'C46')
m('n11', CT, 'mode4', '(str "04") 0 D_drop ECU_ALL false', '(str "04") 0 D_drop ECU_ALL true', 'CLEAR_DTC may be limited', 'C46')
m('ar01', 'Args', 'fill', '| [], _ :: _ => Raise TypeError', '| [], _ :: _ => Ok []', 'surplus positional arguments are ignored', 'C105')
m('ar02', 'Args', 'obd_sig', """(str "timeout", Some (PSeconds 100)); (str "check_voltage", Some (PBool true)); (str "start_low_power", Some (PBool false))].
(* obd.py:68-69 *)""", """(str "check_voltage", Some (PBool true)); (str "timeout", Some (PSeconds 100)); (str "start_low_power", Some (PBool false))].
(* obd.py:68-69 *)""", 'OBD(): timeout and check_voltage swapped', 'C105')
m('ar03', 'Args', 'obd_passes_on', 'call_args elm_sig [portstr; baudrate; protocol; timeout; check_voltage; start_low_power] []', 'call_args elm_sig [portstr; baudrate; protocol; timeout; start_low_power; check_voltage] []', '__connect() passes check_voltage and start_low_power in the wrong order', 'C105')
m('ar04', 'Args', 'async_new', 'let! o := obd_new [portstr; baudrate; protocol; fast; timeout; check_voltage; start_low_power] [] in', 'let! o := obd_new [portstr; baudrate; protocol; fast; timeout; check_voltage] [] in', 'Async() drops start_low_power', 'C105')
m('ar05', 'Args', 'async_sig', '(str "delay_cmds", Some (PSeconds 250))', '(str "delay_cmds", Some (PSeconds 0))', 'default delay 0', 'C105, C106')
m('ar06', 'Args', 'watch_sig', '[(str "c", None); (str "callback", Some PNone); (str "force", Some (PBool false))]', '[(str "c", None); (str "force", Some (PBool false)); (str "callback", Some PNone)]', 'watch(): callback and force swapped', 'C106')
m('ar07', 'Args', 'async_query_sig', 'Definition async_query_sig : signature := [(str "c", None); (str "force", Some (PBool false))].', 'Definition async_query_sig : signature := [(str "c", None)].', 'Async.query() has no force', 'C106')
m('ar08', 'Args', 'command_sig', '(str "ecu", Some (PInt ECU_ALL))', '(str "ecu", Some (PInt ECU_ENGINE))', 'custom commands listen to the engine only', 'C106')
m('ar09', 'Args', 'command_sig', '(str "ecu", Some (PInt ECU_ALL)); (str "fast", Some (PBool false))', '(str "ecu", Some (PInt ECU_ALL)); (str "fast", Some (PBool true))', 'custom commands are fast by default', 'C106')
m('ar10', 'Args', 'config_of', '(truth cv) (truth lp)', '(truth lp) (truth cv)', 'the two switches swapped', 'C105')
m('ar11', 'Args', 'obd_new', 'Ok (nth 3 vs PNone, e)', 'Ok (nth 4 vs PNone, e)', 'self.fast = timeout', 'C105')
m('ar12', 'Args', 'keyword', 'if text_eqb k n then Some v', 'if text_eqb n n then Some v', 'any keyword counts', 'C105')
# definitions not edited before
m('sc01', 'Protocol', 'ECU_TRANSMISSION', 'Definition ECU_TRANSMISSION := 4.', 'Definition ECU_TRANSMISSION := 2.', 'engine and transmission have one mask', 'C13, C67')
m('sc02', 'Protocol', 'ECU_ENGINE', 'Definition ECU_ENGINE := 2.', 'Definition ECU_ENGINE := 1.', 'the engine has the mask of unknown ECUs', 'C13, C31')
m('sc03', 'Protocol', 'FRAME_TYPE_FF', 'Definition FRAME_TYPE_FF := 16.', 'Definition FRAME_TYPE_FF := 48.', 'first frames are taken for flow control', 'C01, C02')
m('sc04', 'Protocol', 'SAE_J1850_PWM', '(str "1") FLegacy', '(str "1") (FCan 11)', 'J1850 PWM is parsed as CAN', 'C108, C72')
m('sc05', 'Protocol', 'ISO_15765_4_11bit_250k', '(str "8") (FCan 11)', '(str "8") (FCan 29)', 'protocol 8 is parsed as 29 bit', 'C108, C72')
m('sc06', 'Protocol', 'ISO_14230_4_fast', '(str "ISO 14230-4 (KWP FAST)") (str "5")', '(str "ISO 14230-4 (KWP FAST)") (str "4")', 'two protocols with one id', 'C108, C72')
m('sc07', 'Protocol', 'unwrap', '| c :: t => c :: unwrap_from (f_seq c) t', '| c :: t => c :: t', 'sequence numbers are not unwrapped', 'C01, C02')
m('sc08', 'Elm', 'ELM_LP_ACTIVE', 'Definition ELM_LP_ACTIVE : bytes := str "OK".', 'Definition ELM_LP_ACTIVE : bytes := str ">".', 'low_power() waits for the prompt', 'C49, C91')
m('sc09', 'Elm', 'elm_send_gen', 'do! elm_write cmd;\n  do r <- elm_read marker;', 'do r <- elm_read marker;\n  do! elm_write cmd;', 'reads before it writes', 'C34, C42')
m('sc10', 'Elm', 'volts', 'remove_char 118 (lower line)', 'remove_char 118 line', 'a voltage with capital V is not read', 'C37, C66')
m('sc11', 'Elm', 'elm_protocol_name', 'Ok (pc_name (p_class p))', 'Ok (pc_id (p_class p))', 'protocol_name() returns the id', 'C72')
m('sc12', 'Obd', 'obd_protocol_id', 'Some e => elm_protocol_id e', 'Some e => elm_protocol_name e', 'protocol_id() returns the name', 'C72')
m('sc13', 'Obd', 'obd_protocol_name', 'None => Ok [] | Some e => elm_protocol_name e', 'None => Raise AttributeError | Some e => elm_protocol_name e', 'protocol_name() raises without a connection', 'C72')
m('sc14', 'Repr', 'str_bool', 'if b then str "True" else str "False"', 'if b then str "False" else str "True"', 'swapped', 'C93')
m('sc15', 'Repr', 'repr_bytes', '98 :: q :: concat', 'q :: concat', 'no b in front of bytes', 'C93')
m('sc16', 'Repr', 'repr_text', 'q :: concat (map (repr_char printable q) t) ++ [q]', 'q :: t ++ [q]', 'nothing is escaped', 'C93')
m('sc17', 'Repr', 'hex_fixed', 'hex_fixed n (c / 16) ++ [hexdigit (c mod 16)]', 'hexdigit (c mod 16) :: hex_fixed n (c / 16)', 'digits backwards', 'C93')
m('sc18', 'Print', 'show_tval', 'Some (TBool b) => show_bool b', 'Some (TBool b) => show_bool (negb b)', 'a boolean value is printed inverted', 'C99')
m('sc19', 'Print', 'show_text', 'Some t => t | None => str "None"', 'Some t => str "None" | None => str "None"', 'no descriptions are printed', 'C99')
m('sc20', 'Print', 'str_type', '| VQty _ _ => str "<class \'pint.Quantity\'>"', '| VQty _ _ => str "<class \'float\'>"', 'wrong type printed', 'none (this case is never reached: an equivalent program)')
m('sc21', 'Decoders', 'index_true', 'let! i := index_true t in Ok (S i)', 'let! i := index_true t in Ok i', 'always the first text', 'C27')
m('sc22', 'Decoders', 'dec_uas', '| None => Raise KeyError', '| None => Ok VNone', 'an unknown units id gives null', 'C23')
m('sc23', 'Decoders', 'value_of_tval', 'TBool b => VBool b', 'TBool b => VBool (negb b)', 'booleans inverted', 'C23')
m('sc24', 'Timed', 'default_delay', 'Definition default_delay : Z := 250000.', 'Definition default_delay : Z := 0.', 'no delay by default', 'C104')
m('sc25', 'Commands', 'by_name', 'dict_set text_eqb d (c_name c) c', 'dict_set text_eqb d (c_desc c) c', 'commands are found by their description', 'C15, C18')
m('sc26', 'Commands', 'get_name', 'Some c => Ok c | None => Raise KeyError', 'Some c => Ok c | None => Raise AttributeError', 'wrong exception for an unknown name', 'C15')
m('sc27', 'Commands', 'modes', 'mode6; mode7; []; mode9', 'mode6; []; mode7; mode9', 'mode 07 is in the place of mode 08', 'C15, C18')
m('sc28', 'Utils', 'status_eqb', 'OBD_CONNECTED, OBD_CONNECTED | CAR_CONNECTED, CAR_CONNECTED => true', 'OBD_CONNECTED, OBD_CONNECTED | CAR_CONNECTED, CAR_CONNECTED | OBD_CONNECTED, CAR_CONNECTED => true', 'ignition off counts as connected', 'C41, C45')
m('sc29', 'Utils', 'count_true', 'zlen (filter (fun b => b) l)', 'zlen (filter negb l)', 'zeros are counted', 'C33')
m('sc30', 'Utils', 'bin', 'bin_digits (S (Z.to_nat (Z.log2 b))) b []', 'bin_digits (Z.to_nat (Z.log2 b)) b []', 'the leading digit is lost', 'C33')
m('sc31', 'Scan', 'ENOENT', 'Definition ENOENT : Z := 2.', 'Definition ENOENT : Z := 13.', 'a missing port raises, one without permission does not', 'C76')
m('sc32', 'Scan', 'new_obd_auto', 'Found (new_obd cf None names w)', 'Found (new_obd cf None (rev names) w)', 'ports are tried backwards', 'C76, C77')
m('sc33', 'Command', 'empty_response', 'mkResponse None [] VNone', 'mkResponse None [] (VBool false)', 'an empty response has a value', 'C45, C53, C80')
m('sc34', 'Command', 'is_none', 'match v with VNone => true | _ => false end', 'match v with VNone => false | _ => true end', 'is_null() is inverted', 'C31, C45')
m('sc35', 'World', 'port_open', '(ok, emit (EvOpen name ok)', '(true, emit (EvOpen name ok)', 'a port that cannot be opened is used', 'C37, C78')
m('sc36', 'World', 'port_baud', '(ok, if ok then emit (EvBaud b) w else emit EvFail w)', '(true, if ok then emit (EvBaud b) w else emit EvFail w)', 'an error while setting the rate goes unnoticed', 'C40')
m('sc37', 'Obd', 'set_last_header', 'mkObd (o_interface o) (o_supported o) (o_fast o) (o_timeout o) (o_last_command o) h', 'mkObd (o_interface o) (o_supported o) (o_fast o) (o_timeout o) (o_last_command o) (o_last_header o)', 'the header is not recorded', 'C48')
m('sc38', 'Obd', 'set_frame_counts', '(o_last_command o) (o_last_header o) l, w)', '(o_last_command o) (o_last_header o) (o_frame_counts o), w)', 'counts are not recorded', 'C46')
m('sc39', 'Async', 'upd_was', 'mkA (a_cmds s) (a_cbs s) (a_gen s) (a_running s) b', 'mkA (a_cmds s) (a_cbs s) (a_gen s) (a_running s) (a_was_running s)', 'paused() does not remember', 'C58')
m('sc40', 'Elm', 'set_status', 'mkElm s (e_port e)', 'mkElm (e_status e) (e_port e)', 'the status never changes', 'C37, C41')
m('sc41', 'Elm', 'unknown_protocol', 'mkProtocol UnknownProtocol []', 'mkProtocol SAE_J1850_PWM []', 'before the protocol is known, answers are parsed as J1850', 'C37, C38')
m('sc42', 'Py', 'endswith1', 'x :: _ => x =? c | [] => false', 'x :: _ => x =? c | [] => true', 'an empty line ends with anything', 'C42, C37')
m('rd01', 'Readers', 'rstep', 'if dict_mem cmd_eqb (a_cmds (r_a r)) c ', 'if negb (dict_mem cmd_eqb (a_cmds (r_a r)) c) ', 'query() of a reader: test inverted', 'C107')
m('rd02', 'Readers', 'rstep', 'mkR (r_a r) (put_at (r_at r) j None)', 'mkR (r_a r) (r_at r)', 'the reader stays in its call', 'C107')
m('rd03', 'Readers', 'rstep', '(r_got r ++ [(j, c, Ok empty_response)])', '(r_got r ++ [(j, c, Raise KeyError)])', 'query() of a command that is not watched raises', 'C107')
m('rd04', 'Readers', 'put_at', 'if Nat.eqb k j then x else f k', 'x', 'one place for all readers', 'C107')
m('rd05', 'Async', 'main_step', 'if a_running s then finish ODone s else upd_pc M_unwatch_all s', 'upd_pc M_unwatch_all s', 'unwatch_all() while running', 'C107, C54')
m('rd06', 'Async', 'watch_table', 'if dict_mem cmd_eqb cmds c then (cmds, cbs)', 'if false then (cmds, cbs)', 'watch() of a watched command forgets its callbacks and its value', 'C53, C59')
m('sf01', 'Obd', 'query', 'set_frame_counts (dict_set cmd_eqb counts c (count_frames ms))', 'set_frame_counts (dict_set cmd_eqb counts c (List.length ms))', 'the messages are counted, not their frames', 'C109, C46')
m('sf02', 'Obd', 'query', 'do! (if dict_mem cmd_eqb counts c then ret tt', 'do! (if dict_mem cmd_eqb counts c && negb (match messages with Some [] => true | _ => false end) then ret tt', 'a count is replaced by 0 when there is no answer', 'C109, C46')
m('sf03', 'Obd', 'build_command_string', '| Some n => s ++ str_nat n', '| Some n => s ++ str_nat (n + 1)', 'one frame more is asked for', 'C109, C89, C46')
m('ec01', 'Protocol', 'mark_unknown', 'if dict_mem oz_eqb map_ (m_tx_id m) then map_ else dict_set oz_eqb map_ (m_tx_id m) ECU_UNKNOWN', 'if dict_mem oz_eqb map_ (m_tx_id m) then map_ else dict_set oz_eqb map_ (m_tx_id m) ECU_ENGINE', 'the other ECUs are marked as the engine', 'C13')
m('ec02', 'Protocol', 'initial_map', '| Some _ => dict_set oz_eqb m (tx_id_transmission c) ECU_TRANSMISSION', '| Some _ => dict_set oz_eqb m (tx_id_transmission c) ECU_ENGINE', 'a silent transmission is marked as the engine', 'C13')
m('li01', 'CommandTable', 'mode9', '(str "0900") 7 D_pid', '(str "0900") 4 D_pid', 'the listing of mode 09 is cut to two bytes of bits', 'C110')
m('li02', 'Commands', 'base_commands', 'str "PIDS_9A"; ', '', 'the listing of mode 09 is not asked for', 'C110, C49')
m('cv01', 'Decoders', 'dec_cvn', 'decode_encoded_string 4 messages', 'decode_encoded_string 10 messages', 'an answer shorter than 10 bytes gives no verification number', 'C111')
m('cv02', 'Decoders', 'dec_cvn', 'VText (bytes_to_hex d)', 'VBytes d', 'the verification number is not written in hexadecimal', 'C111')
m('cv03', 'CommandTable', 'mode9', '(str "0904") 18', '(str "0904") 17', 'the calibration id is cut to 15 bytes, and then too short', 'C30')
m('cv04', 'CommandTable', 'mode9', '(str "0906") 10', '(str "0906") 6', 'the verification number is cut to 4 bytes, of which one is the count', 'C111')
m('rn01', 'Decoders', 'run_decoder', 'D_fuel_pressure => dec_fuel_pressure', 'D_fuel_pressure => dec_pressure', 'the fuel pressure is not multiplied by three', 'C24')
m('rn02', 'Decoders', 'run_decoder', 'D_o2_sensors_alt => dec_o2_sensors_alt', 'D_o2_sensors_alt => dec_o2_sensors', 'the alternative sensor layout is read like the usual one', 'C26')
m('pc01', 'Protocol', 'ISO_15765_4_29bit_500k', '(str "7") (FCan 29)', '(str "7") (FCan 11)', 'protocol 7 reads 11-bit headers', 'C108')
m('pc02', 'Protocol', 'ISO_15765_4_29bit_250k', '(str "9")', '(str "8")', 'protocol 9 is shown with the number 8', 'C72')
m('lm01', 'Obd', 'test_cmd', 'oz_eqb (c_mode c) (Some 6)', 'oz_eqb (c_mode c) (Some 5)', 'the monitors are asked for on every protocol', 'C112')
m('lm02', 'CommandTable', 'mode6', '(str "0600") 0 D_pid', '(str "0600") 4 D_pid', 'the listing of monitors is cut to two bytes of bits', 'C112')
# the claims the edits break
CLAIMS = {"sc23": "none (an equivalent program: no built-in unit yields a boolean)", "sc24": "none (used in an example only; the default of delay_cmds is in Args.v, C106)", "h14": "C46", "m07": "C27", "m08": "C25", "m09": "C27", "m10": "C25", "m11": "C25", "m12": "C25", "m13": "C28", "m19": "C63", "m20": "C63", "m21": "none (an equivalent program: names have no mixed case)", "m26": "C25", "m27": "none (an equivalent program: a test with a value has its limits too)", "m28": "C29", "m29": "C49", "m30": "C42, C34", "m31": "C37", "m34": "C78, C36", "m35": "C40", "m36": "C40, C37", "m44": "C49", "m45": "C42", "m52": "C53, C59", "m54": "C76", "m55": "C12, C05", "m56": "C13", "m62": "C32", "m63": "C32", "m64": "C72", "m65": "C20", "m77": "C72", "m78": "C72", "j32": "C25", "m22": "C86", "i02": "C40", "i04": "C40", "i07": "C40", "i01": "C38", "i06": "C38", "j40": "C40", "j41": "C40", "j45": "C40", "j43": "C38", "m33": "C38", "j51": "C56", "j50": "C53", "m32": "C36", "m46": "C43, C51", "m14": "C63, C46", "m16": "C63, C86", "m18": "C63, C46", "j26": "C95", "m48": "C95", "m49": "C14, C10", "m51": "C66", "m76": "C36", "m59": "C77", "m58": "C08", "m60": "C02", "m24": "C81", "m43": "C48, C44", "m47": "C38", "m17": "C30", "m37": "C24", "m15": "C63", "j46": "C49", "j20": "C01, C03", "p08": "C01", "p10": "C08, C09", "p11": "C06, C14", "p13": "C12", "p14": "C12", "p15": "C10, C11", "p20": "C11", "p22": "C14, C13", "u01": "C32, C25", "u04": "C33, C20", "u06": "C25, C32", "d01": "C24", "d02": "C24", "d03": "C24", "d04": "C24", "d05": "C24", "d06": "C24", "d07": "C24", "d08": "C24", "d10": "C26 or C27", "d15": "C27", "d16": "C27, C19", "d17": "C27, C19", "d20": "C20", "d21": "C20", "d22": "C20", "d23": "C28", "d24": "C29", "d25": "C28", "d26": "C28", "d27": "C30", "d28": "C30", "d29": "C23", "d30": "C23", "d31": "C23", "d32": "C23", "c01": "C15", "c02": "C15", "c03": "C16, C19", "c04": "C15", "c05": "C17", "c06": "C16", "c07": "C18, C63", "c08": "C64", "c09": "C63", "c10": "C64", "e01": "C34", "e02": "C35", "e03": "C35", "e04": "C36", "e05": "C36", "e06": "C51", "e07": "C51", "e08": "C45", "e09": "C37", "e10": "C37", "e11": "C38, C39", "e12": "C38", "e13": "C41", "e14": "C43", "e15": "C37", "e16": "C42", "e17": "C40", "e18": "C37", "e19": "C41", "o01": "C48", "o02": "C48", "o03": "C48", "o04": "C45", "o05": "C46", "o06": "C47", "o07": "C47", "o08": "C46", "o09": "C44", "o10": "C44", "o11": "C44", "o12": "C49", "o13": "C49", "o14": "C51", "o15": "C51", "o16": "C51", "o17": "C50", "o18": "C50", "o19": "C49", "o20": "C43", "o21": "C72", "a01": "C54, C57", "a04": "C56, C62", "a05": "C56", "a06": "C56 (one update thread)", "a07": "C58", "a08": "C58", "a09": "C56", "a10": "C55", "a11": "C53", "a12": "C54, C57"}
for x in M: x['claim'] = CLAIMS.get(x['id'], x['claim'])
# a pattern that occurs more than once: from the head of the definition on
def unique(x):
    import os, re
    p = os.path.join(os.path.dirname(os.path.abspath(__file__)), '..', 'rocq', 'theories', x['file'])
    t = open(p).read()
    if t.count(x['old']) <= 1 or x.get('all'): return
    k = re.search(r'(Definition|Fixpoint)\s+' + re.escape(x['definition']) + r'\b', t)
    if not k: return
    j = t.find(x['old'], k.start())
    if j < 0: return
    head = t[k.start():j]
    x['old'], x['new'] = head + x['old'], head + x['new']
for x in M:
    if x['id'][0] == 'm' or x['id'][:2] in ('sc', 'ar'): unique(x)
print(json.dumps(M, indent=1))
