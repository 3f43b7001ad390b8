(* Specification notions for commands and decoders; nothing here refers to how the model computes. *)
From Coq Require Import ZArith List Bool.
From Verif Require Import Py SpecWire SpecBits.
Import ListNotations.
Open Scope Z_scope.

(* two bit masks have a bit in common *)
Definition common_bit (a b : Z) : Prop := exists i, Z.testbit a i = true /\ Z.testbit b i = true.
(* d' is d brought to n bytes (n > 0) by cutting on the right or adding zeros on the right, or d itself (n <= 0) *)
Definition resized (n : Z) (d d' : bytes) : Prop :=
  (0 < n -> Z.of_nat (length d') = n /\
            ((exists cut, d = d' ++ cut) \/ (exists pad, d' = d ++ pad /\ Forall (eq 0) pad))) /\
  (n <= 0 -> d' = d).
(* the characters l write the hexadecimal digits ds, without blanks *)
Definition writes (l : text) (ds : list Z) : Prop := Forall2 (fun c d => digit_char d c) l ds.
(* the number with these hexadecimal digits *)
Definition hex_number (ds : list Z) : Z := fold_left (fun v d => 16 * v + d) ds 0.

(* ------------------------------------------------------------------ *)
(* trouble codes: two bytes, written letter - digit - three hexadecimal digits *)
Definition dtc_letter (b : Z) : Z := nth (Z.to_nat (b / 64)) [80; 67; 66; 85] 0.   (* P C B U *)
Definition dtc_text (a b : Z) : text :=
  [dtc_letter a; 48 + a / 16 mod 4; lower_digit (a mod 16); lower_digit (b / 16); lower_digit (b mod 16)].
(* the byte pairs of a byte string; an odd last byte is left out *)
Inductive byte_pairs : bytes -> list (Z * Z) -> Prop :=
| byte_pairs_nil : byte_pairs [] []
| byte_pairs_odd b : byte_pairs [b] []
| byte_pairs_cons a b d ps : byte_pairs d ps -> byte_pairs (a :: b :: d) ((a, b) :: ps).
Definition real_code (p : Z * Z) : Prop := p <> (0, 0).
(* lookup in a table of code -> description, first entry; "" if there is none *)
Inductive described (table : list (text * text)) : text -> text -> Prop :=
| described_in before code desc after : table = before ++ (code, desc) :: after -> ~ In code (map fst before) -> described table code desc
| described_out code : ~ In code (map fst table) -> described table code [].

(* blocks of 9 bytes; a rest of fewer than 9 bytes is left out *)
Inductive blocks9 : bytes -> list bytes -> Prop :=
| blocks9_rest d : (length d < 9)%nat -> blocks9 d []
| blocks9_more b d bs : length b = 9%nat -> blocks9 d bs -> blocks9 (b ++ d) (b :: bs).

(* x is the last element of l with property P *)
Definition last_with {A} (P : A -> Prop) (l : list A) (x : A) : Prop :=
  exists before after, l = before ++ x :: after /\ P x /\ Forall (fun y => ~ P y) after.
(* x is the first element of l with property P *)
Definition first_with {A} (P : A -> Prop) (l : list A) (x : A) : Prop :=
  exists before after, l = before ++ x :: after /\ P x /\ Forall (fun y => ~ P y) before.
(* the test id and the units id of a monitor block *)
Definition block_tid (b : bytes) : Z := nth 1 b 0.
Definition block_uas (b : bytes) : Z := nth 2 b 0.
(* the characters a padded string may carry at its ends *)
Definition white (c : Z) : Prop := 9 <= c <= 13 \/ c = 32.
Definition pad_byte (c : Z) : Prop := 0 <= c <= 2.
(* the codes (of trouble code tables) spelled with a letter A-F after the first character *)
Definition upper_hex (c : Z) : Prop := 65 <= c <= 70.
