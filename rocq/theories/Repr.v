(* Model of OBDCommand.__repr__, OBDCommand.__str__ (obd/OBDCommand.py:123-143) and OBD.print_commands (obd/obd.py:229-235), with
   the parts of Python they rest on: repr() of str, bytes, int and bool. No proofs in this file. *)
From Coq Require Import ZArith List Bool.
From Verif Require Import Py Utils Protocol Decoders Command Obd.
Import ListNotations.
Open Scope Z_scope.

(* n lower-case hexadecimal digits of c, the most significant first *)
Fixpoint hex_fixed (n : nat) (c : Z) : text :=
  match n with O => [] | S n => hex_fixed n (c / 16) ++ [hexdigit (c mod 16)] end.

(* the quote repr() chooses: the double quote (34) if there is an apostrophe (39) and no double quote *)
Definition repr_quote (t : text) : Z :=
  if existsb (Z.eqb 39) t && negb (existsb (Z.eqb 34) t) then 34 else 39.
(* repr() of one character of a str between quotes q. `printable` is str.isprintable() for characters outside ASCII, which depends
   on the Unicode database of the interpreter: it is left open. *)
Definition repr_char (printable : Z -> bool) (q c : Z) : text :=
  if (c =? q) || (c =? 92) then [92; c]
  else if c =? 9 then str "\t"
  else if c =? 10 then str "\n"
  else if c =? 13 then str "\r"
  else if (c <? 32) || (c =? 127) then str "\x" ++ hex_fixed 2 c
  else if c <? 127 then [c]
  else if printable c then [c]
  else if c <? 256 then str "\x" ++ hex_fixed 2 c
  else if c <? 65536 then str "\u" ++ hex_fixed 4 c
  else str "\U" ++ hex_fixed 8 c.
(* repr() of a str *)
Definition repr_text (printable : Z -> bool) (t : text) : text :=
  let q := repr_quote t in q :: concat (map (repr_char printable q) t) ++ [q].
(* repr() and str() of bytes *)
Definition repr_byte (q c : Z) : text :=
  if (c =? q) || (c =? 92) then [92; c]
  else if c =? 9 then str "\t"
  else if c =? 10 then str "\n"
  else if c =? 13 then str "\r"
  else if (c <? 32) || (127 <=? c) then str "\x" ++ hex_fixed 2 c
  else [c].
Definition repr_bytes (b : bytes) : text :=
  let q := repr_quote b in 98 :: q :: concat (map (repr_byte q) b) ++ [q].
(* str() of an int and of a bool *)
Definition str_int (n : Z) : text := if n <? 0 then 45 :: str_nat (Z.to_nat (- n)) else str_nat (Z.to_nat n).
Definition str_bool (b : bool) : text := if b then str "True" else str "False".

(* OBDCommand.py:123-126  __str__ *)
Definition cmd_str (c : command) : text :=
  if negb (text_eqb (c_header c) ECU_HEADER_ENGINE) then repr_bytes (c_header c ++ c_command c) ++ str ": " ++ c_desc c
  else repr_bytes (c_command c) ++ str ": " ++ c_desc c.

(* OBDCommand.py:129-135  the ecu argument: later tests win *)
Definition repr_ecu (e : Z) : text :=
  if e =? ECU_TRANSMISSION then str "ECU.TRANSMISSION"
  else if e =? ECU_ENGINE then str "ECU.ENGINE"
  else if e =? ECU_ALL then str "ECU.ALL"
  else str_int e.
(* OBDCommand.py:128-143  __repr__ *)
Definition cmd_repr (printable : Z -> bool) (c : command) : text :=
  str "OBDCommand(" ++ repr_text printable (c_name c) ++ str ", " ++ repr_text printable (c_desc c) ++ str ", " ++ repr_bytes (c_command c)
    ++ str ", " ++ str_int (c_bytes c) ++ str ", raw_string, ecu=" ++ repr_ecu (c_ecu c) ++ str ", fast=" ++ str_bool (c_fast c)
    ++ (if text_eqb (c_header c) ECU_HEADER_ENGINE then [] else str ", header=" ++ repr_bytes (c_header c)) ++ str ")".

(* obd.py:229-235  print_commands: what is written to the terminal. The order is that of the set, which is left open: it is the
   argument `order`, a permutation of the supported commands. *)
Definition print_commands (order : list command) : text := concat (map (fun c => cmd_str c ++ [10]) order).
