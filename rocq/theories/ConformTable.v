(* Generated by tools/gen_conformance.py from tests/test_uas.py and tests/test_decoders.py. No proofs. *)
From Coq Require Import ZArith List.
From Verif Require Import Py Num UasTable Decoders.
Import ListNotations.
Open Scope Z_scope.

(* line of tests/test_uas.py, UAS id, bytes in hex, compared with == (true) or within 0.025 (false), magnitude, unit *)
Definition uas_tests : list (Z * Z * text * bool * lit * text) := [
  (26, 1, str "0000", true, (LInt (0)), str "count");
  (27, 1, str "0001", true, (LInt (1)), str "count");
  (28, 1, str "FFFF", true, (LInt (65535)), str "count");
  (32, 2, str "0000", true, (LInt (0)), str "count");
  (33, 2, str "0001", true, (LDec (1) 10), str "count");
  (34, 2, str "FFFF", true, (LDec (65535) 10), str "count");
  (38, 3, str "0000", true, (LInt (0)), str "count");
  (39, 3, str "0001", true, (LDec (1) 100), str "count");
  (40, 3, str "FFFF", true, (LDec (65535) 100), str "count");
  (44, 4, str "0000", true, (LInt (0)), str "count");
  (45, 4, str "0001", true, (LDec (1) 1000), str "count");
  (46, 4, str "FFFF", true, (LDec (65535) 1000), str "count");
  (50, 5, str "0000", false, (LInt (0)), str "count");
  (51, 5, str "0001", false, (LDec (305) 10000000), str "count");
  (52, 5, str "FFFF", false, (LDec (19999) 10000), str "count");
  (56, 6, str "0000", false, (LInt (0)), str "count");
  (57, 6, str "0001", false, (LDec (305) 1000000), str "count");
  (58, 6, str "FFFF", false, (LDec (19988) 1000), str "count");
  (62, 7, str "0000", false, (LInt (0)), str "rpm");
  (63, 7, str "0002", false, (LDec (5) 10), str "rpm");
  (64, 7, str "FFFD", false, (LDec (1638325) 100), str "rpm");
  (65, 7, str "FFFF", false, (LDec (1638375) 100), str "rpm");
  (69, 8, str "0000", false, (LInt (0)), str "kph");
  (70, 8, str "0064", false, (LInt (1)), str "kph");
  (71, 8, str "03E7", false, (LDec (999) 100), str "kph");
  (72, 8, str "FFFF", false, (LDec (65535) 100), str "kph");
  (76, 9, str "0000", false, (LInt (0)), str "kph");
  (77, 9, str "0064", false, (LInt (100)), str "kph");
  (78, 9, str "03E7", false, (LInt (999)), str "kph");
  (79, 9, str "FFFF", false, (LInt (65535)), str "kph");
  (85, 10, str "0000", false, (LInt (0)), str "millivolt");
  (86, 10, str "0001", false, (LDec (122) 1000), str "millivolt");
  (87, 10, str "2004", false, (LDec (999912) 1000), str "millivolt");
  (88, 10, str "FFFF", false, (LDec (799527) 100), str "millivolt");
  (92, 11, str "0000", true, (LInt (0)), str "volt");
  (93, 11, str "0001", true, (LDec (1) 1000), str "volt");
  (94, 11, str "FFFF", true, (LDec (65535) 1000), str "volt");
  (98, 12, str "0000", false, (LInt (0)), str "volt");
  (99, 12, str "0001", false, (LDec (1) 100), str "volt");
  (100, 12, str "FFFF", false, (LDec (655350) 1000), str "volt");
  (104, 13, str "0000", false, (LInt (0)), str "milliampere");
  (105, 13, str "0001", false, (LDec (4) 1000), str "milliampere");
  (106, 13, str "8000", false, (LInt (128)), str "milliampere");
  (107, 13, str "FFFF", false, (LDec (255996) 1000), str "milliampere");
  (111, 14, str "0000", true, (LInt (0)), str "ampere");
  (112, 14, str "8000", true, (LDec (32768) 1000), str "ampere");
  (113, 14, str "FFFF", true, (LDec (65535) 1000), str "ampere");
  (117, 15, str "0000", true, (LInt (0)), str "ampere");
  (118, 15, str "0001", true, (LDec (1) 100), str "ampere");
  (119, 15, str "FFFF", true, (LDec (65535) 100), str "ampere");
  (123, 16, str "0000", true, (LInt (0)), str "millisecond");
  (124, 16, str "8000", true, (LInt (32768)), str "millisecond");
  (125, 16, str "EA60", true, (LInt (60000)), str "millisecond");
  (126, 16, str "FFFF", true, (LInt (65535)), str "millisecond");
  (130, 17, str "0000", true, (LInt (0)), str "millisecond");
  (131, 17, str "8000", true, (LInt (3276800)), str "millisecond");
  (132, 17, str "EA60", true, (LInt (6000000)), str "millisecond");
  (133, 17, str "FFFF", true, (LInt (6553500)), str "millisecond");
  (137, 18, str "0000", true, (LInt (0)), str "second");
  (138, 18, str "003C", true, (LInt (60)), str "second");
  (139, 18, str "0E10", true, (LInt (3600)), str "second");
  (140, 18, str "FFFF", true, (LInt (65535)), str "second");
  (144, 19, str "0000", true, (LInt (0)), str "milliohm");
  (145, 19, str "0001", true, (LInt (1)), str "milliohm");
  (146, 19, str "8000", true, (LInt (32768)), str "milliohm");
  (147, 19, str "FFFF", true, (LInt (65535)), str "milliohm");
  (151, 20, str "0000", true, (LInt (0)), str "ohm");
  (152, 20, str "0001", true, (LInt (1)), str "ohm");
  (153, 20, str "8000", true, (LInt (32768)), str "ohm");
  (154, 20, str "FFFF", true, (LInt (65535)), str "ohm");
  (158, 21, str "0000", true, (LInt (0)), str "kiloohm");
  (159, 21, str "0001", true, (LInt (1)), str "kiloohm");
  (160, 21, str "8000", true, (LInt (32768)), str "kiloohm");
  (161, 21, str "FFFF", true, (LInt (65535)), str "kiloohm");
  (165, 22, str "0000", true, (LInt (-40)), str "celsius");
  (166, 22, str "0001", true, (LDec (-399) 10), str "celsius");
  (167, 22, str "00DC", true, (LInt (-18)), str "celsius");
  (168, 22, str "0190", true, (LInt (0)), str "celsius");
  (169, 22, str "FFFF", true, (LDec (65135) 10), str "celsius");
  (173, 23, str "0000", true, (LInt (0)), str "kilopascal");
  (174, 23, str "0001", true, (LDec (1) 100), str "kilopascal");
  (175, 23, str "FFFF", true, (LDec (65535) 100), str "kilopascal");
  (179, 24, str "0000", true, (LInt (0)), str "kilopascal");
  (180, 24, str "0001", true, (LDec (117) 10000), str "kilopascal");
  (181, 24, str "FFFF", true, (LDec (7667595) 10000), str "kilopascal");
  (185, 25, str "0000", true, (LInt (0)), str "kilopascal");
  (186, 25, str "0001", true, (LDec (79) 1000), str "kilopascal");
  (187, 25, str "FFFF", true, (LDec (5177265) 1000), str "kilopascal");
  (191, 26, str "0000", true, (LInt (0)), str "kilopascal");
  (192, 26, str "0001", true, (LInt (1)), str "kilopascal");
  (193, 26, str "FFFF", true, (LInt (65535)), str "kilopascal");
  (197, 27, str "0000", true, (LInt (0)), str "kilopascal");
  (198, 27, str "0001", true, (LInt (10)), str "kilopascal");
  (199, 27, str "FFFF", true, (LInt (655350)), str "kilopascal");
  (203, 28, str "0000", true, (LInt (0)), str "degree");
  (204, 28, str "0001", true, (LDec (1) 100), str "degree");
  (205, 28, str "8CA0", true, (LInt (360)), str "degree");
  (206, 28, str "FFFF", true, (LDec (65535) 100), str "degree");
  (210, 29, str "0000", true, (LInt (0)), str "degree");
  (211, 29, str "0001", true, (LDec (5) 10), str "degree");
  (212, 29, str "FFFF", true, (LDec (327675) 10), str "degree");
  (216, 30, str "0000", false, (LInt (0)), str "ratio");
  (217, 30, str "8013", false, (LInt (1)), str "ratio");
  (218, 30, str "FFFF", false, (LDec (1999) 1000), str "ratio");
  (222, 31, str "0000", false, (LInt (0)), str "ratio");
  (223, 31, str "0001", false, (LDec (5) 100), str "ratio");
  (224, 31, str "0014", false, (LInt (1)), str "ratio");
  (225, 31, str "0126", false, (LDec (147) 10), str "ratio");
  (226, 31, str "FFFF", false, (LDec (327675) 100), str "ratio");
  (230, 32, str "0000", false, (LInt (0)), str "ratio");
  (231, 32, str "0001", false, (LDec (39062) 10000000), str "ratio");
  (232, 32, str "FFFF", false, (LDec (255993) 1000), str "ratio");
  (236, 33, str "0000", true, (LInt (0)), str "millihertz");
  (237, 33, str "8000", true, (LInt (32768)), str "millihertz");
  (238, 33, str "FFFF", true, (LInt (65535)), str "millihertz");
  (242, 34, str "0000", true, (LInt (0)), str "hertz");
  (243, 34, str "8000", true, (LInt (32768)), str "hertz");
  (244, 34, str "FFFF", true, (LInt (65535)), str "hertz");
  (248, 35, str "0000", true, (LInt (0)), str "kilohertz");
  (249, 35, str "8000", true, (LInt (32768)), str "kilohertz");
  (250, 35, str "FFFF", true, (LInt (65535)), str "kilohertz");
  (254, 36, str "0000", true, (LInt (0)), str "count");
  (255, 36, str "0001", true, (LInt (1)), str "count");
  (256, 36, str "FFFF", true, (LInt (65535)), str "count");
  (260, 37, str "0000", true, (LInt (0)), str "kilometer");
  (261, 37, str "0001", true, (LInt (1)), str "kilometer");
  (262, 37, str "FFFF", true, (LInt (65535)), str "kilometer");
  (266, 38, str "0000", true, (LInt (0)), str "millivolt / millisecond");
  (267, 38, str "0001", true, (LDec (1) 10), str "millivolt / millisecond");
  (268, 38, str "FFFF", true, (LDec (65535) 10), str "millivolt / millisecond");
  (272, 39, str "0000", true, (LInt (0)), str "grams_per_second");
  (273, 39, str "0001", true, (LDec (1) 100), str "grams_per_second");
  (274, 39, str "FFFF", true, (LDec (65535) 100), str "grams_per_second");
  (278, 40, str "0000", true, (LInt (0)), str "grams_per_second");
  (279, 40, str "0001", true, (LInt (1)), str "grams_per_second");
  (280, 40, str "FFFF", true, (LInt (65535)), str "grams_per_second");
  (284, 41, str "0000", true, (LInt (0)), str "pascal / second");
  (285, 41, str "0004", true, (LInt (1)), str "pascal / second");
  (286, 41, str "FFFF", true, (LDec (1638375) 100), str "pascal / second");
  (290, 42, str "0000", true, (LInt (0)), str "kilogram / hour");
  (291, 42, str "0001", true, (LDec (1) 1000), str "kilogram / hour");
  (292, 42, str "FFFF", true, (LDec (65535) 1000), str "kilogram / hour");
  (296, 43, str "0000", true, (LInt (0)), str "count");
  (297, 43, str "0001", true, (LInt (1)), str "count");
  (298, 43, str "FFFF", true, (LInt (65535)), str "count");
  (302, 44, str "0000", true, (LInt (0)), str "gram");
  (303, 44, str "0001", true, (LDec (1) 100), str "gram");
  (304, 44, str "FFFF", true, (LDec (65535) 100), str "gram");
  (308, 45, str "0000", true, (LInt (0)), str "milligram");
  (309, 45, str "0001", true, (LDec (1) 100), str "milligram");
  (310, 45, str "FFFF", true, (LDec (65535) 100), str "milligram");
  (320, 47, str "0000", true, (LInt (0)), str "percent");
  (321, 47, str "0001", true, (LDec (1) 100), str "percent");
  (322, 47, str "2710", true, (LInt (100)), str "percent");
  (323, 47, str "FFFF", true, (LDec (65535) 100), str "percent");
  (327, 48, str "0000", false, (LInt (0)), str "percent");
  (328, 48, str "0001", false, (LDec (1526) 1000000), str "percent");
  (329, 48, str "FFFF", false, (LDec (10000641) 100000), str "percent");
  (333, 49, str "0000", true, (LInt (0)), str "liter");
  (334, 49, str "0001", true, (LDec (1) 1000), str "liter");
  (335, 49, str "FFFF", true, (LDec (65535) 1000), str "liter");
  (339, 50, str "0000", false, (LInt (0)), str "inch");
  (340, 50, str "0010", false, (LDec (4883) 10000000), str "inch");
  (341, 50, str "0011", false, (LDec (5188) 10000000), str "inch");
  (342, 50, str "FFFF", false, (LDec (19999695) 10000000), str "inch");
  (346, 51, str "0000", false, (LInt (0)), str "ratio");
  (347, 51, str "0001", false, (LDec (24414) 100000000), str "ratio");
  (348, 51, str "1000", false, (LDec (10) 10), str "ratio");
  (349, 51, str "E5BE", false, (LDec (1436) 100), str "ratio");
  (350, 51, str "FFFF", false, (LDec (160) 10), str "ratio");
  (354, 52, str "0000", true, (LInt (0)), str "minute");
  (355, 52, str "003C", true, (LInt (60)), str "minute");
  (356, 52, str "0E10", true, (LInt (3600)), str "minute");
  (357, 52, str "FFFF", true, (LInt (65535)), str "minute");
  (361, 53, str "0000", true, (LInt (0)), str "millisecond");
  (362, 53, str "8000", true, (LInt (327680)), str "millisecond");
  (363, 53, str "EA60", true, (LInt (600000)), str "millisecond");
  (364, 53, str "FFFF", true, (LInt (655350)), str "millisecond");
  (368, 54, str "0000", true, (LInt (0)), str "gram");
  (369, 54, str "0001", true, (LDec (1) 100), str "gram");
  (370, 54, str "FFFF", true, (LDec (65535) 100), str "gram");
  (374, 55, str "0000", true, (LInt (0)), str "gram");
  (375, 55, str "0001", true, (LDec (1) 10), str "gram");
  (376, 55, str "FFFF", true, (LDec (65535) 10), str "gram");
  (380, 56, str "0000", true, (LInt (0)), str "gram");
  (381, 56, str "0001", true, (LInt (1)), str "gram");
  (382, 56, str "FFFF", true, (LInt (65535)), str "gram");
  (386, 57, str "0000", false, (LDec (-32768) 100), str "percent");
  (387, 57, str "58F0", false, (LInt (-100)), str "percent");
  (388, 57, str "7FFF", false, (LDec (-1) 100), str "percent");
  (389, 57, str "8000", false, (LInt (0)), str "percent");
  (390, 57, str "8001", false, (LDec (1) 100), str "percent");
  (391, 57, str "A710", false, (LInt (100)), str "percent");
  (392, 57, str "FFFF", false, (LDec (32767) 100), str "percent");
  (396, 58, str "0000", true, (LInt (0)), str "gram");
  (397, 58, str "0001", true, (LDec (1) 1000), str "gram");
  (398, 58, str "FFFF", true, (LDec (65535) 1000), str "gram");
  (402, 59, str "0000", false, (LInt (0)), str "gram");
  (403, 59, str "0001", false, (LDec (1) 10000), str "gram");
  (404, 59, str "FFFF", false, (LDec (65535) 10000), str "gram");
  (408, 60, str "0000", true, (LInt (0)), str "microsecond");
  (409, 60, str "8000", true, (LDec (32768) 10), str "microsecond");
  (410, 60, str "EA60", true, (LDec (60000) 10), str "microsecond");
  (411, 60, str "FFFF", true, (LDec (65535) 10), str "microsecond");
  (415, 61, str "0000", true, (LInt (0)), str "milliampere");
  (416, 61, str "0001", true, (LDec (1) 100), str "milliampere");
  (417, 61, str "FFFF", true, (LDec (65535) 100), str "milliampere");
  (421, 62, str "0000", false, (LInt (0)), str "millimeter ** 2");
  (422, 62, str "8000", false, (LDec (19999) 10000), str "millimeter ** 2");
  (423, 62, str "FFFF", false, (LDec (39999) 10000), str "millimeter ** 2");
  (427, 63, str "0000", true, (LInt (0)), str "liter");
  (428, 63, str "0001", true, (LDec (1) 100), str "liter");
  (429, 63, str "FFFF", true, (LDec (65535) 100), str "liter");
  (433, 64, str "0000", true, (LInt (0)), str "ppm");
  (434, 64, str "0001", true, (LInt (1)), str "ppm");
  (435, 64, str "FFFF", true, (LInt (65535)), str "ppm");
  (439, 65, str "0000", true, (LInt (0)), str "microampere");
  (440, 65, str "0001", true, (LDec (1) 100), str "microampere");
  (441, 65, str "FFFF", true, (LDec (65535) 100), str "microampere");
  (450, 129, str "8000", true, (LInt (-32768)), str "count");
  (451, 129, str "FFFF", true, (LInt (-1)), str "count");
  (452, 129, str "0000", true, (LInt (0)), str "count");
  (453, 129, str "0001", true, (LInt (1)), str "count");
  (454, 129, str "7FFF", true, (LInt (32767)), str "count");
  (458, 130, str "8000", true, (LDec (-32768) 10), str "count");
  (459, 130, str "FFFF", true, (LDec (-1) 10), str "count");
  (460, 130, str "0000", true, (LInt (0)), str "count");
  (461, 130, str "0001", true, (LDec (1) 10), str "count");
  (462, 130, str "7FFF", false, (LDec (32767) 10), str "count");
  (466, 131, str "8000", true, (LDec (-32768) 100), str "count");
  (467, 131, str "FFFF", true, (LDec (-1) 100), str "count");
  (468, 131, str "0000", true, (LInt (0)), str "count");
  (469, 131, str "0001", true, (LDec (1) 100), str "count");
  (470, 131, str "7FFF", false, (LDec (32767) 100), str "count");
  (474, 132, str "8000", true, (LDec (-32768) 1000), str "count");
  (475, 132, str "FFFF", true, (LDec (-1) 1000), str "count");
  (476, 132, str "0000", true, (LInt (0)), str "count");
  (477, 132, str "0001", true, (LDec (1) 1000), str "count");
  (478, 132, str "7FFF", false, (LDec (32767) 1000), str "count");
  (482, 133, str "8000", false, (LDec (-9999995) 10000000), str "count");
  (483, 133, str "FFFF", false, (LDec (-305) 10000000), str "count");
  (484, 133, str "0000", false, (LInt (0)), str "count");
  (485, 133, str "0001", false, (LDec (305) 10000000), str "count");
  (486, 133, str "7FFF", false, (LDec (9999995) 10000000), str "count");
  (490, 134, str "8000", false, (LDec (-9999995) 1000000), str "count");
  (491, 134, str "FFFF", false, (LDec (-305) 1000000), str "count");
  (492, 134, str "0000", false, (LInt (0)), str "count");
  (493, 134, str "0001", false, (LDec (305) 1000000), str "count");
  (494, 134, str "7FFF", false, (LDec (9999995) 1000000), str "count");
  (498, 135, str "8000", true, (LInt (-32768)), str "ppm");
  (499, 135, str "FFFF", true, (LInt (-1)), str "ppm");
  (500, 135, str "0000", true, (LInt (0)), str "ppm");
  (501, 135, str "0001", true, (LInt (1)), str "ppm");
  (502, 135, str "7FFF", true, (LInt (32767)), str "ppm");
  (508, 138, str "8000", false, (LDec (-3997696) 1000), str "millivolt");
  (509, 138, str "FFFF", false, (LDec (-122) 1000), str "millivolt");
  (510, 138, str "0000", false, (LInt (0)), str "millivolt");
  (511, 138, str "0001", false, (LDec (122) 1000), str "millivolt");
  (512, 138, str "7FFF", false, (LDec (3997574) 1000), str "millivolt");
  (516, 139, str "8000", true, (LDec (-32768) 1000), str "volt");
  (517, 139, str "FFFF", true, (LDec (-1) 1000), str "volt");
  (518, 139, str "0000", true, (LInt (0)), str "volt");
  (519, 139, str "0001", true, (LDec (1) 1000), str "volt");
  (520, 139, str "7FFF", true, (LDec (32767) 1000), str "volt");
  (524, 140, str "8000", true, (LDec (-32768) 100), str "volt");
  (525, 140, str "FFFF", true, (LDec (-1) 100), str "volt");
  (526, 140, str "0000", true, (LInt (0)), str "volt");
  (527, 140, str "0001", true, (LDec (1) 100), str "volt");
  (528, 140, str "7FFF", true, (LDec (32767) 100), str "volt");
  (532, 141, str "8000", false, (LInt (-128)), str "milliampere");
  (533, 141, str "FFFF", false, (LDec (-390625) 100000000), str "milliampere");
  (534, 141, str "0000", false, (LInt (0)), str "milliampere");
  (535, 141, str "0001", false, (LDec (390625) 100000000), str "milliampere");
  (536, 141, str "7FFF", false, (LDec (127996) 1000), str "milliampere");
  (540, 142, str "8000", true, (LDec (-32768) 1000), str "ampere");
  (541, 142, str "FFFF", true, (LDec (-1) 1000), str "ampere");
  (542, 142, str "0000", true, (LInt (0)), str "ampere");
  (543, 142, str "0001", true, (LDec (1) 1000), str "ampere");
  (544, 142, str "7FFF", true, (LDec (32767) 1000), str "ampere");
  (548, 144, str "8000", true, (LInt (-32768)), str "millisecond");
  (549, 144, str "FFFF", true, (LInt (-1)), str "millisecond");
  (550, 144, str "0000", true, (LInt (0)), str "millisecond");
  (551, 144, str "0001", true, (LInt (1)), str "millisecond");
  (552, 144, str "7FFF", true, (LInt (32767)), str "millisecond");
  (556, 150, str "8000", false, (LDec (-32768) 10), str "celsius");
  (557, 150, str "FFFF", false, (LDec (-1) 10), str "celsius");
  (558, 150, str "0000", false, (LInt (0)), str "celsius");
  (559, 150, str "0001", false, (LDec (1) 10), str "celsius");
  (560, 150, str "7FFF", false, (LDec (32767) 10), str "celsius");
  (564, 153, str "8000", false, (LDec (-32768) 10), str "kilopascal");
  (565, 153, str "FFFF", false, (LDec (-1) 10), str "kilopascal");
  (566, 153, str "0000", false, (LInt (0)), str "kilopascal");
  (567, 153, str "0001", false, (LDec (1) 10), str "kilopascal");
  (568, 153, str "7FFF", false, (LDec (32767) 10), str "kilopascal");
  (572, 156, str "8000", true, (LDec (-32768) 100), str "degree");
  (573, 156, str "FFFF", true, (LDec (-1) 100), str "degree");
  (574, 156, str "0000", true, (LInt (0)), str "degree");
  (575, 156, str "0001", true, (LDec (1) 100), str "degree");
  (576, 156, str "7FFF", true, (LDec (32767) 100), str "degree");
  (580, 157, str "8000", true, (LInt (-16384)), str "degree");
  (581, 157, str "FFFF", true, (LDec (-5) 10), str "degree");
  (582, 157, str "0000", true, (LInt (0)), str "degree");
  (583, 157, str "0001", true, (LDec (5) 10), str "degree");
  (584, 157, str "7FFF", true, (LDec (163835) 10), str "degree");
  (588, 168, str "8000", true, (LInt (-32768)), str "grams_per_second");
  (589, 168, str "FFFF", true, (LInt (-1)), str "grams_per_second");
  (590, 168, str "0000", true, (LInt (0)), str "grams_per_second");
  (591, 168, str "0001", true, (LInt (1)), str "grams_per_second");
  (592, 168, str "7FFF", true, (LInt (32767)), str "grams_per_second");
  (596, 169, str "8000", true, (LInt (-8192)), str "pascal / second");
  (597, 169, str "FFFC", true, (LInt (-1)), str "pascal / second");
  (598, 169, str "0000", true, (LInt (0)), str "pascal / second");
  (599, 169, str "0004", true, (LInt (1)), str "pascal / second");
  (600, 169, str "7FFF", true, (LDec (819175) 100), str "pascal / second");
  (604, 173, str "8000", true, (LDec (-32768) 100), str "milligram");
  (605, 173, str "FFFF", true, (LDec (-1) 100), str "milligram");
  (606, 173, str "0000", true, (LInt (0)), str "milligram");
  (607, 173, str "0001", true, (LDec (1) 100), str "milligram");
  (608, 173, str "7FFF", true, (LDec (32767) 100), str "milligram");
  (612, 174, str "8000", true, (LDec (-32768) 10), str "milligram");
  (613, 174, str "FFFF", true, (LDec (-1) 10), str "milligram");
  (614, 174, str "0000", true, (LInt (0)), str "milligram");
  (615, 174, str "0001", true, (LDec (1) 10), str "milligram");
  (616, 174, str "7FFF", false, (LDec (32767) 10), str "milligram");
  (620, 175, str "8000", true, (LDec (-32768) 100), str "percent");
  (621, 175, str "FFFF", true, (LDec (-1) 100), str "percent");
  (622, 175, str "0000", true, (LInt (0)), str "percent");
  (623, 175, str "0001", true, (LDec (1) 100), str "percent");
  (624, 175, str "7FFF", true, (LDec (32767) 100), str "percent");
  (628, 176, str "8000", true, (LDec (-100007936) 1000000), str "percent");
  (629, 176, str "FFFF", true, (LDec (-3052) 1000000), str "percent");
  (630, 176, str "0000", true, (LInt (0)), str "percent");
  (631, 176, str "0001", true, (LDec (3052) 1000000), str "percent");
  (632, 176, str "7FFF", true, (LDec (100004884) 1000000), str "percent");
  (636, 177, str "8000", true, (LInt (-65536)), str "millivolt / second");
  (637, 177, str "FFFF", true, (LInt (-2)), str "millivolt / second");
  (638, 177, str "0000", true, (LInt (0)), str "millivolt / second");
  (639, 177, str "0001", true, (LInt (2)), str "millivolt / second");
  (640, 177, str "7FFF", true, (LInt (65534)), str "millivolt / second");
  (644, 252, str "8000", true, (LDec (-32768) 100), str "kilopascal");
  (645, 252, str "FFFF", true, (LDec (-1) 100), str "kilopascal");
  (646, 252, str "0000", true, (LInt (0)), str "kilopascal");
  (647, 252, str "0001", true, (LDec (1) 100), str "kilopascal");
  (648, 252, str "7FFF", true, (LDec (32767) 100), str "kilopascal");
  (652, 253, str "8000", true, (LDec (-32768) 1000), str "kilopascal");
  (653, 253, str "FFFF", true, (LDec (-1) 1000), str "kilopascal");
  (654, 253, str "0000", true, (LInt (0)), str "kilopascal");
  (655, 253, str "0001", true, (LDec (1) 1000), str "kilopascal");
  (656, 253, str "7FFF", true, (LDec (32767) 1000), str "kilopascal");
  (660, 254, str "8000", true, (LInt (-8192)), str "pascal");
  (661, 254, str "FFFC", true, (LInt (-1)), str "pascal");
  (662, 254, str "0000", true, (LInt (0)), str "pascal");
  (663, 254, str "0004", true, (LInt (1)), str "pascal");
  (664, 254, str "7FFF", true, (LDec (819175) 100), str "pascal")].

(* the same for the boolean id 0x2E *)
Definition uas_bool_tests : list (Z * Z * text * bool) := [
  (314, 46, str "0000", false);
  (315, 46, str "0001", true);
  (316, 46, str "FFFF", true)].

(* tests/test_decoders.py: decoder, message data in hex, exact or within 0.025, magnitude, unit *)
Definition decoder_tests : list (decoder * text * bool * lit * text) := [
  (D_percent, str "410000", true, (LDec (0) 10), str "percent");
  (D_percent, str "4100FF", true, (LDec (1000) 10), str "percent");
  (D_percent_centered, str "410000", true, (LDec (-1000) 10), str "percent");
  (D_percent_centered, str "410080", true, (LDec (0) 10), str "percent");
  (D_percent_centered, str "4100FF", false, (LDec (992) 10), str "percent");
  (D_temp, str "410000", true, (LInt (-40)), str "celsius");
  (D_temp, str "4100FF", true, (LInt (215)), str "celsius");
  (D_temp, str "410003E8", true, (LInt (960)), str "celsius");
  (D_current_centered, str "410000000000", true, (LDec (-1280) 10), str "milliampere");
  (D_current_centered, str "410000008000", true, (LDec (0) 10), str "milliampere");
  (D_current_centered, str "4100ABCD8000", true, (LDec (0) 10), str "milliampere");
  (D_current_centered, str "41000000FFFF", false, (LDec (1280) 10), str "milliampere");
  (D_sensor_voltage, str "41000000", true, (LDec (0) 10), str "volt");
  (D_sensor_voltage, str "4100FFFF", true, (LDec (1275) 1000), str "volt");
  (D_sensor_voltage_big, str "410000000000", true, (LDec (0) 10), str "volt");
  (D_sensor_voltage_big, str "410000008000", false, (LDec (40) 10), str "volt");
  (D_sensor_voltage_big, str "41000000FFFF", true, (LDec (80) 10), str "volt");
  (D_sensor_voltage_big, str "4100ABCD0000", true, (LDec (0) 10), str "volt");
  (D_fuel_pressure, str "410000", true, (LInt (0)), str "kilopascal");
  (D_fuel_pressure, str "410080", true, (LInt (384)), str "kilopascal");
  (D_fuel_pressure, str "4100FF", true, (LInt (765)), str "kilopascal");
  (D_pressure, str "410000", true, (LInt (0)), str "kilopascal");
  (D_pressure, str "410000", true, (LInt (0)), str "kilopascal");
  (D_abs_evap_pressure, str "41000000", true, (LInt (0)), str "kilopascal");
  (D_abs_evap_pressure, str "4100FFFF", true, (LDec (327675) 1000), str "kilopascal");
  (D_evap_pressure_alt, str "41000000", true, (LInt (-32767)), str "pascal");
  (D_evap_pressure_alt, str "41007FFF", true, (LInt (0)), str "pascal");
  (D_evap_pressure_alt, str "4100FFFF", true, (LInt (32768)), str "pascal");
  (D_timing_advance, str "410000", true, (LDec (-640) 10), str "degree");
  (D_timing_advance, str "4100FF", true, (LDec (635) 10), str "degree");
  (D_inject_timing, str "41000000", true, (LInt (-210)), str "degree");
  (D_inject_timing, str "4100FFFF", false, (LInt (302)), str "degree");
  (D_max_maf, str "410000000000", true, (LInt (0)), str "gps");
  (D_max_maf, str "4100FF000000", true, (LInt (2550)), str "gps");
  (D_max_maf, str "410000ABCDEF", true, (LInt (0)), str "gps");
  (D_fuel_rate, str "41000000", true, (LDec (0) 10), str "liters_per_hour");
  (D_fuel_rate, str "4100FFFF", true, (LDec (327675) 100), str "liters_per_hour");
  (D_absolute_load, str "41000000", true, (LInt (0)), str "percent");
  (D_absolute_load, str "4100FFFF", true, (LInt (25700)), str "percent")].
