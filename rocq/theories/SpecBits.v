(* Specification of bits and bytes, independent of the model: element i of a byte string read most significant bit
   first, the big-endian number, lower-case hexadecimal text. *)
From Coq Require Import ZArith List Bool.
From Verif Require Import Py.
Import ListNotations.
Open Scope Z_scope.

(* bit i of the byte string: bit 7 - i mod 8 of byte i / 8 *)
Definition bit_of (d : bytes) (i : nat) : bool := Z.testbit (nth (i / 8) d 0) (7 - Z.of_nat (i mod 8)).
Definition nbits (d : bytes) : nat := (8 * length d)%nat.
(* how many bits are set *)
Definition ones (d : bytes) : Z := Z.of_nat (length (filter (bit_of d) (seq 0 (nbits d)))).
(* the big-endian number *)
Definition big_endian (d : bytes) : Z := fold_left (fun v b => 256 * v + b) d 0.
(* big-endian encoding in n bytes *)
Fixpoint encode (n : nat) (v : Z) : bytes :=
  match n with O => [] | S n => encode n (v / 256) ++ [v mod 256] end.
(* the lower-case hexadecimal digit *)
Definition lower_digit (d : Z) : Z := if d <? 10 then 48 + d else 97 + (d - 10).
