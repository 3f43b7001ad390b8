(* Specification vocabulary for whole readings, from the wire to the value of a response. No proofs. *)
From Coq Require Import ZArith List Bool Permutation Sorted.
From Verif Require Import Py Utils Protocol Command World Elm Obd SpecWire SpecProto SpecCmd SpecElm SpecObd.
Import ListNotations.
Open Scope Z_scope.

(* the protocol object a connection is using *)
Definition uses (o : obd) (p : protocol) : Prop := exists e, o_interface o = Some e /\ e_protocol e = Some p.
(* the ECU with id u was given this mark when the connection was made *)
Definition marked (p : protocol) (u mark : Z) : Prop := dict_get oz_eqb (p_map p) (Some u) = Some mark.
(* messages of ECU u are for commands with this mask of marks *)
Definition heeds (mask : Z) (p : protocol) (u : Z) : Prop :=
  exists mark, common_bit mask mark /\ (marked p u mark \/ (forall mark', ~ marked p u mark') /\ mark = ECU_UNKNOWN).
(* the last line written in this port activity was answered with these lines *)
Definition last_answer (t : list event) (lines : list text) : Prop := exists t1 t2 s, t = t1 ++ t2 /\ asks 12 s t2 lines.

(* delivers f u ls payload: in a protocol of family f, the lines ls are how ECU u sends this payload *)
Inductive delivers : family -> Z -> list text -> bytes -> Prop :=
| delivers_can_single h l payload padding :
    id_ok h -> Forall is_byte payload -> Forall is_byte padding -> payload <> [] -> (length payload + length padding <= 7)%nat ->
    can_line h l (single_frame payload padding) -> delivers (FCan (id_width h)) (sender h) [l] payload
| delivers_can_multi h ls payload frames :
    id_ok h -> segmented payload frames -> Z.of_nat (length payload) <= 4095 -> Forall (Forall is_byte) frames ->
    Forall2 (can_line h) ls frames -> delivers (FCan (id_width h)) (sender h) ls payload
| delivers_legacy_single u l payload : legacy_from u l payload -> delivers FLegacy u [l] payload
| delivers_legacy_multi u ls mode pid parts datas :
    (2 <= length parts)%nat ->
    Permutation datas (map (fun x => legacy_part mode pid (Z.of_nat (fst x)) (snd x)) (combine (seq 1 (length parts)) parts)) ->
    Forall2 (legacy_from u) ls datas -> delivers FLegacy u ls (mode :: pid :: List.concat parts).

(* in an answer, ECU u is heard with exactly these lines *)
Definition heard_from (f : family) (u : Z) (lines ls : list text) : Prop := selects (is_from f u) lines ls.
Definition silent (f : family) (u : Z) (lines : list text) : Prop := forall l, In l lines -> ~ is_from f u l.

(* reports_codes f mode u ls codes: the lines ls are how ECU u reports the trouble codes with these bytes (two per code) in its answer
   to a request in mode 03 (stored codes) or 07 (codes of the current driving cycle): on CAN behind a count of the codes, and, in mode 03,
   perhaps padded; elsewhere in lines of up to three codes each, without a count *)
Inductive reports_codes : family -> Z -> Z -> list text -> bytes -> Prop :=
| reports_can_stored w u ls n codes padding :
    delivers (FCan w) u ls (67 :: n :: codes ++ padding) -> Z.of_nat (length codes) = 2 * n -> reports_codes (FCan w) 3 u ls codes
| reports_can_current w u ls n codes :
    delivers (FCan w) u ls (71 :: n :: codes) -> Z.of_nat (length codes) = 2 * n -> reports_codes (FCan w) 7 u ls codes
| reports_legacy mode u ls datas :
    ls <> [] -> Forall2 (fun l d => legacy_from u l (64 + mode :: d)) ls datas -> Nat.even (length (List.concat datas)) = true ->
    reports_codes FLegacy mode u ls (List.concat datas).

(* reading c p lines q: in some session, query(c) returned q; its last line was answered with these lines; the connection uses p *)
Definition reading (c : command) (p : protocol) (lines : list text) (q : response) : Prop :=
  exists cf port scan w t0 h o w1 force o' w2 t, session cf port scan w t0 h (o, w1) /\ query c force (o, w1) = (Ok q, (o', w2))
    /\ w_trace w2 = w_trace w1 ++ t /\ last_answer t lines /\ uses o p.
(* in this answer, the first ECU (by id) that is heeded by commands with this mask sends payload *)
Definition speaks (p : protocol) (mask : Z) (lines : list text) (payload : bytes) : Prop :=
  exists u ls, heard_from (pc_family (p_class p)) u lines ls /\ delivers (pc_family (p_class p)) u ls payload /\ heeds mask p u
    /\ (forall u', u' < u -> heeds mask p u' -> silent (pc_family (p_class p)) u' lines).

(* the protocols, as docs/Connections.md lists them (except that it has "AUTO, ISO 9141-2" for 3) *)
Definition documented_protocols : list (text * text) :=
  [(str "1", str "SAE J1850 PWM"); (str "2", str "SAE J1850 VPW"); (str "3", str "ISO 9141-2"); (str "4", str "ISO 14230-4 (KWP 5BAUD)"); (str "5", str "ISO 14230-4 (KWP FAST)");
   (str "6", str "ISO 15765-4 (CAN 11/500)"); (str "7", str "ISO 15765-4 (CAN 29/500)"); (str "8", str "ISO 15765-4 (CAN 11/250)"); (str "9", str "ISO 15765-4 (CAN 29/250)"); (str "A", str "SAE J1939 (CAN 29/250)")].
