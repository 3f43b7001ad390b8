(* Specification of what travels over the wire, written without the model's functions: hexadecimal lines as an
   adapter prints them, CAN and legacy headers, ISO 15765-2 segmentation, legacy multi-line answers.
   Only the types text and bytes (lists of integers) are shared with the model. *)
From Coq Require Import ZArith List Bool Permutation.
From Verif Require Import Py.
Import ListNotations.
Open Scope Z_scope.

Definition is_byte (b : Z) : Prop := 0 <= b < 256.
Definition is_nibble (d : Z) : Prop := 0 <= d < 16.

(* the character c is a way to write the hexadecimal digit d *)
Definition digit_char (d c : Z) : Prop :=
  (0 <= d <= 9 /\ c = 48 + d) \/ (10 <= d <= 15 /\ (c = 55 + d \/ c = 87 + d)).
(* the text shows these digits, with blanks (32) anywhere between them, in either case *)
Inductive shows : text -> list Z -> Prop :=
| shows_end : shows [] []
| shows_blank l ds : shows l ds -> shows (32 :: l) ds
| shows_digit c d l ds : digit_char d c -> shows l ds -> shows (c :: l) (d :: ds).
(* the two digits of each byte *)
Definition nibbles (bs : bytes) : list Z := flat_map (fun b => [b / 16; b mod 16]) bs.
(* a line of hex digits and blanks only *)
Definition hex_line (l : text) : Prop := exists ds, shows l ds.

(* ------------------------------------------------------------------ *)
(* CAN identifiers as printed: three digits, or four bytes *)
Inductive can_id : Set :=
| Id11 (d1 d2 d3 : Z)
| Id29 (b1 b2 b3 b4 : Z).
Definition id_ok (h : can_id) : Prop :=
  match h with
  | Id11 a b c => is_nibble a /\ is_nibble b /\ is_nibble c
  | Id29 a b c d => is_byte a /\ is_byte b /\ is_byte c /\ is_byte d
  end.
Definition id_digits (h : can_id) : list Z :=
  match h with Id11 a b c => [a; b; c] | Id29 a b c d => nibbles [a; b; c; d] end.
Definition id_width (h : can_id) : Z := match h with Id11 _ _ _ => 11 | Id29 _ _ _ _ => 29 end.
(* who sent it. 11 bits: 7E8..7EF are the ECUs 0..7, everything else is the tester (F1); 29 bits: the last byte *)
Definition sender (h : can_id) : Z :=
  match h with
  | Id11 _ b c => if (b =? 13) then 241 else if 8 <=? c then c - 8 else 241
  | Id29 _ _ _ d => d
  end.
(* a line as printed by the adapter for a CAN frame with these data bytes *)
Definition can_line (h : can_id) (line : text) (data : bytes) : Prop := shows line (id_digits h ++ nibbles data).

(* ------------------------------------------------------------------ *)
(* ISO 15765-2. A single frame: length, payload, padding *)
Definition single_frame (payload padding : bytes) : bytes := (Z.of_nat (length payload) :: payload) ++ padding.
(* consecutive frames from number i on: 7 bytes each, the last one with the rest and possibly padding *)
Inductive consecutive : Z -> bytes -> list bytes -> Prop :=
| consecutive_last i rest pad :
    rest <> [] -> (length rest + length pad <= 7)%nat ->
    consecutive i rest [ (32 + i mod 16) :: rest ++ pad ]
| consecutive_more i chunk rest frames :
    length chunk = 7%nat -> rest <> [] -> consecutive (i + 1) rest frames ->
    consecutive i (chunk ++ rest) (((32 + i mod 16) :: chunk) :: frames).
(* a first frame with the length and 6 bytes, then consecutive frames numbered from 1 *)
Inductive segmented : bytes -> list bytes -> Prop :=
| segmented_intro a rest frames :
    length a = 6%nat -> consecutive 1 rest frames ->
    segmented (a ++ rest)
      ((16 + Z.of_nat (length (a ++ rest)) / 256 :: Z.of_nat (length (a ++ rest)) mod 256 :: a) :: frames).

(* a mode 03 answer ends after the announced number of two-byte codes *)
Definition dtc_cut (payload : bytes) : bytes :=
  match payload with
  | 67 :: count :: _ => firstn (Z.to_nat (2 + 2 * count)) payload
  | _ => payload
  end.

(* ------------------------------------------------------------------ *)
(* legacy lines: three header bytes, data, checksum *)
Definition legacy_line (b1 b2 tx : Z) (line : text) (data : bytes) (checksum : Z) : Prop :=
  shows line (nibbles ([b1; b2; tx] ++ data ++ [checksum])).
(* the i-th line of a multi-line answer *)
Definition legacy_part (mode pid i : Z) (part : bytes) : bytes := mode :: pid :: i :: part.

(* ------------------------------------------------------------------ *)
(* ls is exactly the sublist of the elements of l with property P, in order *)
Inductive selects {A} (P : A -> Prop) : list A -> list A -> Prop :=
| selects_nil : selects P [] []
| selects_keep x l ls : P x -> selects P l ls -> selects P (x :: l) (x :: ls)
| selects_skip x l ls : ~ P x -> selects P l ls -> selects P (x :: l) ls.

(* the data bytes of an acceptable CAN frame: 2 to 8, a single frame or a first frame announcing at least
   one byte, or a consecutive frame *)
Definition acceptable (data : bytes) : Prop :=
  (2 <= length data <= 8)%nat /\
  match data with
  | pci :: lo :: _ => (pci / 16 = 0 /\ pci mod 16 <> 0) \/ (pci / 16 = 1 /\ (pci mod 16 <> 0 \/ lo <> 0)) \/ pci / 16 = 2
  | _ => False
  end.
(* line is an acceptable frame, with these data, sent by ECU t (w: width of identifiers, 11 or 29) *)
Definition frame_from (w t : Z) (line : text) (data : bytes) : Prop :=
  exists h, id_width h = w /\ id_ok h /\ sender h = t /\ Forall is_byte data /\ can_line h line data /\ acceptable data.

(* how the data of the frames of one ECU, in order of arrival, determine a payload *)
Definition frame_type (data : bytes) : Z := match data with pci :: _ => pci / 16 | [] => -1 end.
Definition number (data : bytes) : Z := match data with pci :: _ => pci mod 16 | [] => -1 end.
Inductive reassembled : list bytes -> bytes -> Prop :=
| reassembled_single n d :
    0 <= n < 16 ->
    reassembled [n :: d] (firstn (Z.to_nat n) d)
| reassembled_multi frames pci lo d ord :
    (2 <= length frames)%nat ->
    (* exactly one first frame *)
    filter (fun x => frame_type x =? 1) frames = [pci :: lo :: d] ->
    (* all consecutive frames, each once, in an order in which the i-th (from 1) is numbered i mod 16 *)
    Permutation ord (filter (fun x => frame_type x =? 2) frames) ->
    ord <> [] ->
    (forall i x, nth_error ord i = Some x -> number x = Z.of_nat (i + 1) mod 16) ->
    reassembled frames (firstn (Z.to_nat (256 * (pci mod 16) + lo)) (d ++ List.concat (map (@tl Z) ord))).
