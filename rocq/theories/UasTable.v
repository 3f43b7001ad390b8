(* Generated by tools/gen_tables.py from obd/UnitsAndScaling.py. No proofs. *)
From Coq Require Import ZArith List.
From Verif Require Import Py Num.
Import ListNotations.
Open Scope Z_scope.

(* a number as written in the source: an int, or a decimal num/den that becomes the nearest float *)
Inductive lit : Set := LInt (z : Z) | LDec (num den : Z).
Definition lit_num (l : lit) : num :=
  match l with LInt z => PyInt z | LDec n d => PyFloat (float_of_ratio (n <? 0) (Z.abs n) d) end.

(* UnitsAndScaling.py:46-56  UAS(signed, scale, unit, offset); :117 the lambda of id 0x2E *)
Inductive uas : Set :=
| UAS (signed : bool) (scale : lit) (unit : text) (offset : lit)
| UAS_any.

(* UnitsAndScaling.py:70-174  UAS_IDS *)
Definition UAS_IDS : list (Z * uas) := [
  (1, UAS false (LInt (1)) (str "count") (LDec 0 10));
  (2, UAS false (LDec (1) 10) (str "count") (LDec 0 10));
  (3, UAS false (LDec (1) 100) (str "count") (LDec 0 10));
  (4, UAS false (LDec (1) 1000) (str "count") (LDec 0 10));
  (5, UAS false (LDec (305) 10000000) (str "count") (LDec 0 10));
  (6, UAS false (LDec (305) 1000000) (str "count") (LDec 0 10));
  (7, UAS false (LDec (25) 100) (str "rpm") (LDec 0 10));
  (8, UAS false (LDec (1) 100) (str "kph") (LDec 0 10));
  (9, UAS false (LInt (1)) (str "kph") (LDec 0 10));
  (10, UAS false (LDec (122) 1000) (str "millivolt") (LDec 0 10));
  (11, UAS false (LDec (1) 1000) (str "volt") (LDec 0 10));
  (12, UAS false (LDec (1) 100) (str "volt") (LDec 0 10));
  (13, UAS false (LDec (390625) 100000000) (str "milliampere") (LDec 0 10));
  (14, UAS false (LDec (1) 1000) (str "ampere") (LDec 0 10));
  (15, UAS false (LDec (1) 100) (str "ampere") (LDec 0 10));
  (16, UAS false (LInt (1)) (str "millisecond") (LDec 0 10));
  (17, UAS false (LInt (100)) (str "millisecond") (LDec 0 10));
  (18, UAS false (LInt (1)) (str "second") (LDec 0 10));
  (19, UAS false (LInt (1)) (str "milliohm") (LDec 0 10));
  (20, UAS false (LInt (1)) (str "ohm") (LDec 0 10));
  (21, UAS false (LInt (1)) (str "kiloohm") (LDec 0 10));
  (22, UAS false (LDec (1) 10) (str "celsius") (LDec (-400) 10));
  (23, UAS false (LDec (1) 100) (str "kilopascal") (LDec 0 10));
  (24, UAS false (LDec (117) 10000) (str "kilopascal") (LDec 0 10));
  (25, UAS false (LDec (79) 1000) (str "kilopascal") (LDec 0 10));
  (26, UAS false (LInt (1)) (str "kilopascal") (LDec 0 10));
  (27, UAS false (LInt (10)) (str "kilopascal") (LDec 0 10));
  (28, UAS false (LDec (1) 100) (str "degree") (LDec 0 10));
  (29, UAS false (LDec (5) 10) (str "degree") (LDec 0 10));
  (30, UAS false (LDec (305) 10000000) (str "ratio") (LDec 0 10));
  (31, UAS false (LDec (5) 100) (str "ratio") (LDec 0 10));
  (32, UAS false (LDec (390625) 100000000) (str "ratio") (LDec 0 10));
  (33, UAS false (LInt (1)) (str "millihertz") (LDec 0 10));
  (34, UAS false (LInt (1)) (str "hertz") (LDec 0 10));
  (35, UAS false (LInt (1)) (str "kilohertz") (LDec 0 10));
  (36, UAS false (LInt (1)) (str "count") (LDec 0 10));
  (37, UAS false (LInt (1)) (str "kilometer") (LDec 0 10));
  (38, UAS false (LDec (1) 10) (str "millivolt / millisecond") (LDec 0 10));
  (39, UAS false (LDec (1) 100) (str "grams_per_second") (LDec 0 10));
  (40, UAS false (LInt (1)) (str "grams_per_second") (LDec 0 10));
  (41, UAS false (LDec (25) 100) (str "pascal / second") (LDec 0 10));
  (42, UAS false (LDec (1) 1000) (str "kilogram / hour") (LDec 0 10));
  (43, UAS false (LInt (1)) (str "count") (LDec 0 10));
  (44, UAS false (LDec (1) 100) (str "gram") (LDec 0 10));
  (45, UAS false (LDec (1) 100) (str "milligram") (LDec 0 10));
  (46, UAS_any);
  (47, UAS false (LDec (1) 100) (str "percent") (LDec 0 10));
  (48, UAS false (LDec (1526) 1000000) (str "percent") (LDec 0 10));
  (49, UAS false (LDec (1) 1000) (str "liter") (LDec 0 10));
  (50, UAS false (LDec (305) 10000000) (str "inch") (LDec 0 10));
  (51, UAS false (LDec (24414) 100000000) (str "ratio") (LDec 0 10));
  (52, UAS false (LInt (1)) (str "minute") (LDec 0 10));
  (53, UAS false (LInt (10)) (str "millisecond") (LDec 0 10));
  (54, UAS false (LDec (1) 100) (str "gram") (LDec 0 10));
  (55, UAS false (LDec (1) 10) (str "gram") (LDec 0 10));
  (56, UAS false (LInt (1)) (str "gram") (LDec 0 10));
  (57, UAS false (LDec (1) 100) (str "percent") (LDec (-32768) 100));
  (58, UAS false (LDec (1) 1000) (str "gram") (LDec 0 10));
  (59, UAS false (LDec (1) 10000) (str "gram") (LDec 0 10));
  (60, UAS false (LDec (1) 10) (str "microsecond") (LDec 0 10));
  (61, UAS false (LDec (1) 100) (str "milliampere") (LDec 0 10));
  (62, UAS false (LDec (6103516) 100000000000) (str "millimeter ** 2") (LDec 0 10));
  (63, UAS false (LDec (1) 100) (str "liter") (LDec 0 10));
  (64, UAS false (LInt (1)) (str "ppm") (LDec 0 10));
  (65, UAS false (LDec (1) 100) (str "microampere") (LDec 0 10));
  (129, UAS true (LInt (1)) (str "count") (LDec 0 10));
  (130, UAS true (LDec (1) 10) (str "count") (LDec 0 10));
  (131, UAS true (LDec (1) 100) (str "count") (LDec 0 10));
  (132, UAS true (LDec (1) 1000) (str "count") (LDec 0 10));
  (133, UAS true (LDec (305) 10000000) (str "count") (LDec 0 10));
  (134, UAS true (LDec (305) 1000000) (str "count") (LDec 0 10));
  (135, UAS true (LInt (1)) (str "ppm") (LDec 0 10));
  (138, UAS true (LDec (122) 1000) (str "millivolt") (LDec 0 10));
  (139, UAS true (LDec (1) 1000) (str "volt") (LDec 0 10));
  (140, UAS true (LDec (1) 100) (str "volt") (LDec 0 10));
  (141, UAS true (LDec (390625) 100000000) (str "milliampere") (LDec 0 10));
  (142, UAS true (LDec (1) 1000) (str "ampere") (LDec 0 10));
  (144, UAS true (LInt (1)) (str "millisecond") (LDec 0 10));
  (150, UAS true (LDec (1) 10) (str "celsius") (LDec 0 10));
  (153, UAS true (LDec (1) 10) (str "kilopascal") (LDec 0 10));
  (156, UAS true (LDec (1) 100) (str "degree") (LDec 0 10));
  (157, UAS true (LDec (5) 10) (str "degree") (LDec 0 10));
  (168, UAS true (LInt (1)) (str "grams_per_second") (LDec 0 10));
  (169, UAS true (LDec (25) 100) (str "pascal / second") (LDec 0 10));
  (173, UAS true (LDec (1) 100) (str "milligram") (LDec 0 10));
  (174, UAS true (LDec (1) 10) (str "milligram") (LDec 0 10));
  (175, UAS true (LDec (1) 100) (str "percent") (LDec 0 10));
  (176, UAS true (LDec (3052) 1000000) (str "percent") (LDec 0 10));
  (177, UAS true (LInt (2)) (str "millivolt / second") (LDec 0 10));
  (252, UAS true (LDec (1) 100) (str "kilopascal") (LDec 0 10));
  (253, UAS true (LDec (1) 1000) (str "kilopascal") (LDec 0 10));
  (254, UAS true (LDec (25) 100) (str "pascal") (LDec 0 10))
].
