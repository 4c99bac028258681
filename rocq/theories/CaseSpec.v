(* Case pairs of the Unicode standard. *)
From Verif Require Import Base.
Open Scope Z_scope.

(* Small letters and their capitals (Simple_Uppercase_Mapping), for the letters which the
   tables of fatfs/unicode.c know: from, to, step, and the distance of the capital; in order, by the
   first letter. *)
Definition pairs : list (Z * Z * Z * Z) := [
  (97, 122, 1, -32); (224, 246, 1, -32); (248, 254, 1, -32); (255, 255, 1, 121); (257, 303, 2, -1); (307, 311,
  2, -1); (314, 328, 2, -1); (331, 375, 2, -1); (378, 382, 2, -1); (384, 384, 1, 195); (387, 389, 2, -1); (392,
  392, 1, -1); (396, 396, 1, -1); (402, 402, 1, -1); (405, 405, 1, 97); (409, 409, 1, -1); (410, 410, 1, 163);
  (414, 414, 1, 130); (417, 421, 2, -1); (424, 424, 1, -1); (429, 429, 1, -1); (432, 432, 1, -1); (436, 438, 2,
  -1); (441, 441, 1, -1); (445, 445, 1, -1); (447, 447, 1, 56); (454, 454, 1, -2); (457, 457, 1, -2); (460, 460,
  1, -2); (462, 476, 2, -1); (477, 477, 1, -79); (479, 495, 2, -1); (499, 499, 1, -2); (501, 501, 1, -1); (505,
  543, 2, -1); (547, 563, 2, -1); (572, 572, 1, -1); (578, 578, 1, -1); (583, 591, 2, -1); (595, 595, 1, -210);
  (596, 596, 1, -206); (598, 599, 1, -205); (601, 601, 1, -202); (603, 603, 1, -203); (608, 608, 1, -205); (611,
  611, 1, -207); (616, 616, 1, -209); (617, 617, 1, -211); (619, 619, 1, 10743); (623, 623, 1, -211); (626, 626,
  1, -213); (629, 629, 1, -214); (637, 637, 1, 10727); (640, 640, 1, -218); (643, 643, 1, -218); (648, 648, 1,
  -218); (649, 649, 1, -69); (650, 651, 1, -217); (652, 652, 1, -71); (658, 658, 1, -219); (891, 893, 1, 130);
  (940, 940, 1, -38); (941, 943, 1, -37); (945, 961, 1, -32); (962, 962, 1, -31); (963, 971, 1, -32); (972, 972,
  1, -64); (973, 974, 1, -63); (985, 1007, 2, -1); (1010, 1010, 1, 7); (1016, 1016, 1, -1); (1019, 1019, 1, -1);
  (1072, 1103, 1, -32); (1104, 1119, 1, -80); (1121, 1153, 2, -1); (1163, 1215, 2, -1); (1218, 1230, 2, -1);
  (1231, 1231, 1, -15); (1233, 1299, 2, -1); (1377, 1414, 1, -48); (7549, 7549, 1, 3814); (7681, 7829, 2, -1);
  (7841, 7929, 2, -1); (7936, 7943, 1, 8); (7952, 7957, 1, 8); (7968, 7975, 1, 8); (7984, 7991, 1, 8); (8000,
  8005, 1, 8); (8017, 8023, 2, 8); (8032, 8039, 1, 8); (8048, 8049, 1, 74); (8050, 8053, 1, 86); (8054, 8055, 1,
  100); (8056, 8057, 1, 128); (8058, 8059, 1, 112); (8060, 8061, 1, 126); (8064, 8071, 1, 8); (8080, 8087, 1,
  8); (8096, 8103, 1, 8); (8112, 8113, 1, 8); (8115, 8115, 1, 9); (8131, 8131, 1, 9); (8144, 8145, 1, 8); (8160,
  8161, 1, 8); (8165, 8165, 1, 7); (8179, 8179, 1, 9); (8526, 8526, 1, -28); (8560, 8575, 1, -16); (8580, 8580,
  1, -1); (9424, 9449, 1, -26); (11312, 11358, 1, -48); (11361, 11361, 1, -1); (11365, 11365, 1, -10795);
  (11366, 11366, 1, -10792); (11368, 11372, 2, -1); (11382, 11382, 1, -1); (11393, 11491, 2, -1); (11520, 11557,
  1, -7264); (65345, 65370, 1, -32)
].
Fixpoint capital_in (l : list (Z * Z * Z * Z)) (c : Z) : Z :=
  match l with
  | [] => c
  | (a, b, s, d) :: l => if c <? a then c else if (if c <=? b then (c - a) mod s =? 0 else false) then c + d else capital_in l c
  end.
Definition capital (c : Z) : Z := capital_in pairs c.

(* Three pairs which the tables have the wrong way round (U+2C65, U+2C66, U+1FC3 are small
   letters). *)
Definition turned : list (Z * Z) := [(11365, 570); (11366, 574); (8131, 8140)].
Definition is_turned (c : Z) : bool := existsb (fun p => (c =? fst p) || (c =? snd p)) turned.
