(* Model of obd/protocols/protocol.py, protocol_can.py, protocol_legacy.py, protocol_unknown.py.
   No proofs in this file. *)
From Coq Require Import ZArith List Bool.
From Verif Require Import Py Utils.
Import ListNotations.
Open Scope Z_scope.

(* protocol.py:47-49  ECU_HEADER *)
Definition ECU_HEADER_ENGINE : bytes := str "7E0".

(* protocol.py:52-61  ECU *)
Definition ECU_ALL := 255.
Definition ECU_ALL_KNOWN := 254.
Definition ECU_UNKNOWN := 1.
Definition ECU_ENGINE := 2.
Definition ECU_TRANSMISSION := 4.

(* protocol.py:64-76  Frame *)
Record frame := mkFrame {
  f_raw : text;
  f_data : bytes;
  f_priority : option Z;
  f_addr_mode : option Z;
  f_rx_id : option Z;
  f_tx_id : option Z;
  f_type : option Z;
  f_seq : Z;
  f_data_len : option Z
}.
(* protocol.py:67-76  Frame(raw) *)
Definition new_frame (raw : text) : frame := mkFrame raw [] None None None None None 0 None.
Definition set_seq (f : frame) (s : Z) : frame :=
  mkFrame (f_raw f) (f_data f) (f_priority f) (f_addr_mode f) (f_rx_id f) (f_tx_id f) (f_type f) s (f_data_len f).

(* protocol.py:79-85  Message. Simplification: a message holds its frames as they were parsed; the code later
   overwrites Frame.seq_index of consecutive frames (protocol_can.py:219) and, through an alias, the data of the first
   legacy frame (protocol_legacy.py:157-162). Nothing in obd reads these afterwards. *)
Record message := mkMessage { m_frames : list frame; m_ecu : Z; m_data : bytes }.

(* protocol.py:87-92  Message.tx_id *)
Definition m_tx_id (m : message) : option Z :=
  match m_frames m with [] => None | f :: _ => f_tx_id f end.
(* protocol.py:94-95  Message.hex *)
Definition m_hex (m : message) : text := bytes_to_hex (m_data m).
(* protocol.py:97-99  Message.raw *)
Definition m_raw (m : message) : text := join [10] (map f_raw (m_frames m)).
(* protocol.py:101-103  Message.parsed *)
Definition m_parsed (m : message) : bool := nonempty (m_data m).

(* ------------------------------------------------------------------ *)
(* protocol_can.py:46-48 *)
Definition FRAME_TYPE_SF := 0.
Definition FRAME_TYPE_FF := 16.
Definition FRAME_TYPE_CF := 32.

(* protocol_can.py:92-117  header fields: (priority, addr_mode, rx_id, tx_id) *)
Definition can_header (id_bits : Z) (rb : bytes) : res (Z * Z * Z * Z) :=
  if id_bits =? 11 then
    let! b2 := get rb 2 in
    let! b3 := get rb 3 in
    let priority := Z.land b2 15 in
    let addr_mode := Z.land b3 240 in
    if addr_mode =? 208 then Ok (priority, addr_mode, Z.land b3 15, 241)
    else if negb (Z.land b3 8 =? 0) then Ok (priority, addr_mode, 241, Z.land b3 7)
    else Ok (priority, addr_mode, Z.land b3 7, 241)
  else
    let! b0 := get rb 0 in
    let! b1 := get rb 1 in
    let! b2 := get rb 2 in
    let! b3 := get rb 3 in
    Ok (b0, b1, b2, b3).

(* protocol_can.py:56-161  CANProtocol.parse_frame: None = the frame is dropped (the method returns False) *)
Definition can_parse_frame (id_bits : Z) (line : text) : res (option frame) :=
  let raw := if id_bits =? 11 then str "00000" ++ line else line in
  if negb (Z.land (zlen raw) 1 =? 0) then Ok None else
  let! rb := unhexlify raw in
  if zlen rb <? 6 then Ok None else
  if 12 <? zlen rb then Ok None else
  let! hdr := can_header id_bits rb in
  let '(priority, addr_mode, rx, tx) := hdr in
  let data := from 4 rb in
  let! pci := get data 0 in
  let type := Z.land pci 240 in
  let fr := mkFrame line data (Some priority) (Some addr_mode) (Some rx) (Some tx) (Some type) in
  if type =? FRAME_TYPE_SF then
    let data_len := Z.land pci 15 in
    if data_len =? 0 then Ok None else Ok (Some (fr 0 (Some data_len)))
  else if type =? FRAME_TYPE_FF then
    let! d1 := get data 1 in
    let data_len := Z.shiftl (Z.land pci 15) 8 + d1 in
    if data_len =? 0 then Ok None else Ok (Some (fr 0 (Some data_len)))
  else if type =? FRAME_TYPE_CF then
    Ok (Some (fr (Z.land pci 15) None))
  else Ok None.

(* protocol_can.py:207-219  sequence indices of consecutive frames, in order of arrival; prev is the (already
   corrected) index of the previous one *)
Fixpoint unwrap_from (prev : Z) (cf : list frame) : list frame :=
  match cf with
  | [] => []
  | curr :: t =>
      let seq := Z.land prev (Z.lnot 15) + f_seq curr in
      let seq := if seq <? prev - 7 then seq + 16 else seq in
      set_seq curr seq :: unwrap_from seq t
  end.
Definition unwrap (cf : list frame) : list frame :=
  match cf with
  | [] => []
  | c :: t => c :: unwrap_from (f_seq c) t
  end.

Definition is_type (ty : Z) (f : frame) : bool := oz_eqb (f_type f) (Some ty).

(* data[lo:hi] where hi is an attribute that may be None (then a TypeError in the arithmetic or an open end; it is
   never None for the frames this is used on) *)
Definition len_of (f : frame) : res nat :=
  match f_data_len f with Some n => Ok (Z.to_nat n) | None => Raise TypeError end.

(* protocol_can.py:257-268  trim DTC answers to the announced count *)
Definition trim_dtc (data : bytes) : res bytes :=
  let! d0 := get data 0 in
  if d0 =? 67 then
    let! d1 := get data 1 in
    Ok (upto (Z.to_nat (d1 * 2 + 2)) data)
  else Ok data.

(* protocol_can.py:163-270  CANProtocol.parse_message: the data of the message; None = the message is dropped *)
Definition can_parse_message (frames : list frame) : res (option bytes) :=
  match frames with
  | [f] =>
      if negb (is_type FRAME_TYPE_SF f) then Ok None
      else
        let! n := len_of f in
        let! d := trim_dtc (slice 1 (1 + n) (f_data f)) in
        Ok (Some d)
  | _ =>
      let ff := filter (is_type FRAME_TYPE_FF) frames in
      let cf := filter (is_type FRAME_TYPE_CF) frames in
      match ff with
      | [f0] =>
          if negb (nonempty cf) then Ok None
          else
            let cf := sort_by f_seq (unwrap cf) in
            if negb (contiguous (map f_seq cf) 1 (zlen cf)) then Ok None
            else
              let data := fold_left (fun acc f => acc ++ from 1 (f_data f)) cf (from 2 (f_data f0)) in
              let! n := len_of f0 in
              let! d := trim_dtc (upto n data) in
              Ok (Some d)
      | _ => Ok None
      end
  end.

(* ------------------------------------------------------------------ *)
(* protocol_legacy.py:48-80  LegacyProtocol.parse_frame; raw_bytes[3:-1] drops header and checksum *)
Definition legacy_parse_frame (line : text) : res (option frame) :=
  if negb (Z.land (zlen line) 1 =? 0) then Ok None else
  let! rb := unhexlify line in
  if zlen rb <? 6 then Ok None else
  if 11 <? zlen rb then Ok None else
  let data := slice 3 (length rb - 1) rb in
  let! b0 := get rb 0 in
  let! b1 := get rb 1 in
  let! b2 := get rb 2 in
  Ok (Some (mkFrame line data (Some b0) None (Some b1) (Some b2) None 0 None)).

(* f.data[i] for a key function *)
Definition order_byte (f : frame) : res Z := get (f_data f) 2.

(* list.pop(i) *)
Definition pop_at {A} (i : nat) (l : list A) : list A := firstn i l ++ skipn (S i) l.

(* protocol_legacy.py:82-164  LegacyProtocol.parse_message *)
Definition legacy_parse_message (frames : list frame) : res (option bytes) :=
  let! first := get frames 0 in
  let! mode := get (f_data first) 0 in
  let! modes := rmap (fun f => get (f_data f) 0) (tl frames) in
  if negb (forallb (fun m => mode =? m) modes) then Ok None
  else if mode =? 67 then
    Ok (Some (fold_left (fun acc f => acc ++ from 1 (f_data f)) frames [67; 0]))
  else
    match frames with
    | [f] => Ok (Some (f_data f))
    | _ =>
        let! keys := rmap order_byte frames in
        let sorted := sort_by fst (combine keys frames) in
        if negb (contiguous (map fst sorted) 1 (zlen frames)) then Ok None
        else
          match map snd sorted with
          | [] => Ok None
          | f0 :: rest =>
              Ok (Some (fold_left (fun acc f => acc ++ from 3 (f_data f)) rest (pop_at 2 (f_data f0))))
          end
    end.

(* ------------------------------------------------------------------ *)
(* the protocol classes *)
Inductive family : Set := FUnknown | FLegacy | FCan (id_bits : Z).
Record pclass := mkClass { pc_name : text; pc_id : text; pc_family : family }.

(* protocol.py:133-135, protocol_can.py:43-44, protocol_legacy.py:43  TX_ID_ENGINE, TX_ID_TRANSMISSION *)
Definition tx_id_engine (c : pclass) : option Z :=
  match pc_family c with FUnknown => None | FLegacy => Some 16 | FCan _ => Some 0 end.
Definition tx_id_transmission (c : pclass) : option Z :=
  match pc_family c with FUnknown => None | FLegacy => None | FCan _ => Some 1 end.

(* protocol_unknown.py:37-49, protocol_legacy.py:174-196, protocol_can.py:280-317 *)
Definition UnknownProtocol := mkClass [] [] FUnknown.
Definition SAE_J1850_PWM := mkClass (str "SAE J1850 PWM") (str "1") FLegacy.
Definition SAE_J1850_VPW := mkClass (str "SAE J1850 VPW") (str "2") FLegacy.
Definition ISO_9141_2 := mkClass (str "ISO 9141-2") (str "3") FLegacy.
Definition ISO_14230_4_5baud := mkClass (str "ISO 14230-4 (KWP 5BAUD)") (str "4") FLegacy.
Definition ISO_14230_4_fast := mkClass (str "ISO 14230-4 (KWP FAST)") (str "5") FLegacy.
Definition ISO_15765_4_11bit_500k := mkClass (str "ISO 15765-4 (CAN 11/500)") (str "6") (FCan 11).
Definition ISO_15765_4_29bit_500k := mkClass (str "ISO 15765-4 (CAN 29/500)") (str "7") (FCan 29).
Definition ISO_15765_4_11bit_250k := mkClass (str "ISO 15765-4 (CAN 11/250)") (str "8") (FCan 11).
Definition ISO_15765_4_29bit_250k := mkClass (str "ISO 15765-4 (CAN 29/250)") (str "9") (FCan 29).
Definition SAE_J1939 := mkClass (str "SAE J1939 (CAN 29/250)") (str "A") (FCan 29).

(* self.parse_frame, self.parse_message: dispatch on the class *)
Definition parse_frame (c : pclass) (line : text) : res (option frame) :=
  match pc_family c with
  | FUnknown => Ok (Some (new_frame line))           (* protocol_unknown.py:45-46 *)
  | FLegacy => legacy_parse_frame line
  | FCan b => can_parse_frame b line
  end.
Definition parse_message (c : pclass) (frames : list frame) : res (option bytes) :=
  match pc_family c with
  | FUnknown => Ok (Some [])                         (* protocol_unknown.py:48-49: data stays bytearray() *)
  | FLegacy => legacy_parse_message frames
  | FCan _ => can_parse_message frames
  end.

(* dict of ECU tags, keys are tx ids *)
Definition ecu_map := list (option Z * Z).

(* protocol.py:206-213  frames_by_ECU *)
Definition group_frame (d : list (option Z * list frame)) (f : frame) : list (option Z * list frame) :=
  match dict_get oz_eqb d (f_tx_id f) with
  | None => dict_set oz_eqb d (f_tx_id f) [f]
  | Some l => dict_set oz_eqb d (f_tx_id f) (l ++ [f])
  end.
(* order of sorted(keys). Simplification: sorting None together with ints is a TypeError in Python; it cannot arise,
   because the frames of one call all carry an int (CAN, legacy) or all None (unknown). *)
Definition okey (k : option Z) : Z := match k with Some z => z | None => -1 end.

(* protocol.py:215-227  one message per ECU, in the order of ids *)
Definition assemble (c : pclass) (map_ : ecu_map) (kv : option Z * list frame) : res (list message) :=
  let! r := parse_message c (snd kv) in
  match r with
  | Some data =>
      Ok [mkMessage (snd kv)
            (match dict_get oz_eqb map_ (fst kv) with Some e => e | None => ECU_UNKNOWN end) data]
  | None => Ok []
  end.

Definition no_spaces (line : text) : text := remove_char 32 line.

(* protocol.py:169-236  Protocol.__call__ *)
Definition protocol_call (c : pclass) (map_ : ecu_map) (lines : list text) : res (list message) :=
  let obd_lines := map no_spaces (filter (fun l => isHex (no_spaces l)) lines) in
  let non_obd_lines := filter (fun l => negb (isHex (no_spaces l))) lines in
  let! parsed := rmap (parse_frame c) obd_lines in
  let frames := flat_map (fun o => match o with Some f => [f] | None => [] end) parsed in
  let by_ecu := fold_left group_frame frames [] in
  let! msgs := rmap (assemble c map_) (sort_by (fun kv => okey (fst kv)) by_ecu) in
  Ok (List.concat msgs ++ map (fun l => mkMessage [new_frame l] ECU_UNKNOWN []) non_obd_lines).

(* protocol.py:263-274  exact matches of known ids; the boolean is found_engine *)
Definition match_known (c : pclass) (st : ecu_map * bool) (m : message) : ecu_map * bool :=
  match m_tx_id m with
  | None => st
  | Some t =>
      if oz_eqb (Some t) (tx_id_engine c) then (dict_set oz_eqb (fst st) (Some t) ECU_ENGINE, true)
      else if oz_eqb (Some t) (tx_id_transmission c) then (dict_set oz_eqb (fst st) (Some t) ECU_TRANSMISSION, snd st)
      else st
  end.
(* protocol.py:276-287  the id with the most bits set *)
Definition most_bits (ms : list message) : option Z :=
  snd (fold_left (fun (st : Z * option Z) m =>
                    let bits := num_set (ba_of (m_data m)) in
                    if fst st <? bits then (bits, m_tx_id m) else st)
                 ms (0, None)).
(* protocol.py:291-294 *)
Definition mark_unknown (map_ : ecu_map) (m : message) : ecu_map :=
  if dict_mem oz_eqb map_ (m_tx_id m) then map_ else dict_set oz_eqb map_ (m_tx_id m) ECU_UNKNOWN.

(* protocol.py:238-294  populate_ecu_map *)
Definition populate_ecu_map (c : pclass) (map_ : ecu_map) (messages : list message) : ecu_map :=
  let messages := filter m_parsed messages in
  match messages with
  | [] => map_
  | [m] => dict_set oz_eqb map_ (m_tx_id m) ECU_ENGINE
  | _ =>
      let '(map1, found_engine) := fold_left (match_known c) messages (map_, false) in
      let map2 := if found_engine then map1 else dict_set oz_eqb map1 (most_bits messages) ECU_ENGINE in
      fold_left mark_unknown messages map2
  end.

(* protocol.py:145-153  the initial map *)
Definition initial_map (c : pclass) : ecu_map :=
  let m := [] in
  let m := match tx_id_engine c with Some _ => dict_set oz_eqb m (tx_id_engine c) ECU_ENGINE | None => m end in
  match tx_id_transmission c with
  | Some _ => dict_set oz_eqb m (tx_id_transmission c) ECU_TRANSMISSION
  | None => m
  end.

(* protocol.py:163-167  the log lines: "%d" % None is a TypeError (formatted eagerly) *)
Definition log_map (m : ecu_map) : res unit :=
  if forallb (fun kv => match fst kv with Some _ => true | None => false end) m then Ok tt else Raise TypeError.

(* a protocol object *)
Record protocol := mkProtocol { p_class : pclass; p_map : ecu_map }.

(* protocol.py:137-167  Protocol.__init__ *)
Definition new_protocol (c : pclass) (lines_0100 : list text) : res protocol :=
  let m0 := initial_map c in
  let! messages := protocol_call c m0 lines_0100 in
  let m1 := populate_ecu_map c m0 messages in
  let! _ := log_map m1 in
  Ok (mkProtocol c m1).

Definition call (p : protocol) (lines : list text) : res (list message) :=
  protocol_call (p_class p) (p_map p) lines.
