(** The tables of the operators of content streams: src/pdfmm/base/PdfOperatorUtils.cpp. The operators are numbered as PdfDeclarations.h:622-715
    numbers them, 0 is Unknown. *)
From Coq Require Import String.
From Verif Require Import Base.
Local Open Scope Z_scope.

(** PdfOperatorUtils.cpp:22-394 TryGetPdfOperator, in the order of the comparisons *)
Definition op_table : list (list Z * Z) := Eval vm_compute in
  [(bs "w", 1); (bs "J", 2); (bs "j", 3); (bs "M", 4); (bs "d", 5); (bs "ri", 6); (bs "i", 7); (bs "gs", 8); (bs "q", 9); (bs "Q", 10);
   (bs "cm", 11); (bs "m", 12); (bs "l", 13); (bs "c", 14); (bs "v", 15); (bs "y", 16); (bs "h", 17); (bs "re", 18); (bs "S", 19);
   (bs "s", 20); (bs "f", 21); (bs "F", 22); (bs "f*", 23); (bs "B", 24); (bs "B*", 25); (bs "b", 26); (bs "b*", 27); (bs "n", 28);
   (bs "W", 29); (bs "W*", 30); (bs "BT", 31); (bs "ET", 32); (bs "Tc", 33); (bs "Tw", 34); (bs "Tz", 35); (bs "TL", 36); (bs "Tf", 37);
   (bs "Tr", 38); (bs "Ts", 39); (bs "Td", 40); (bs "TD", 41); (bs "Tm", 42); (bs "T*", 43); (bs "Tj", 44); (bs "TJ", 45); ([39], 46);
   ([34], 47); (bs "d0", 48); (bs "d1", 49); (bs "CS", 50); (bs "cs", 51); (bs "SC", 52); (bs "SCN", 53); (bs "sc", 54); (bs "scn", 55);
   (bs "G", 56); (bs "g", 57); (bs "RG", 58); (bs "rg", 59); (bs "K", 60); (bs "k", 61); (bs "sh", 62); (bs "BI", 63); (bs "ID", 64);
   (bs "EI", 65); (bs "Do", 66); (bs "MP", 67); (bs "DP", 68); (bs "BMC", 69); (bs "BDC", 70); (bs "EMC", 71); (bs "BX", 72);
   (bs "EX", 73)].
(** 405-633 TryGetOperandCount; -1 is any number *)
Definition count_table : list (Z * Z) :=
  [(1, 1); (2, 1); (3, 1); (4, 1); (5, 2); (6, 1); (7, 1); (8, 1); (9, 0); (10, 0); (11, 6); (12, 2); (13, 2); (14, 6); (15, 4); (16, 4);
   (17, 0); (18, 4); (19, 0); (20, 0); (21, 0); (22, 0); (23, 0); (24, 0); (25, 0); (26, 0); (27, 0); (28, 0); (29, 0); (30, 0); (31, 0);
   (32, 0); (33, 1); (34, 1); (35, 1); (36, 1); (37, 2); (38, 1); (39, 1); (40, 2); (41, 2); (42, 6); (43, 0); (44, 1); (45, 1); (46, 1);
   (47, 3); (48, 2); (49, 6); (50, 1); (51, 1); (52, -1); (53, -1); (54, -1); (55, -1); (56, 1); (57, 1); (58, 3); (59, 3); (60, 4);
   (61, 4); (62, 1); (63, 0); (64, 0); (65, 0); (66, 1); (67, 1); (68, 2); (69, 1); (70, 2); (71, 0); (72, 0); (73, 0)].
(** 644-1018 TryGetPdfOperatorName *)
Definition opname_table : list (Z * list Z) := Eval vm_compute in
  [(1, bs "w"); (2, bs "J"); (3, bs "j"); (4, bs "M"); (5, bs "d"); (6, bs "ri"); (7, bs "i"); (8, bs "gs"); (9, bs "q"); (10, bs "Q");
   (11, bs "cm"); (12, bs "m"); (13, bs "l"); (14, bs "c"); (15, bs "v"); (16, bs "y"); (17, bs "h"); (18, bs "re"); (19, bs "S");
   (20, bs "s"); (21, bs "f"); (22, bs "F"); (23, bs "f*"); (24, bs "B"); (25, bs "B*"); (26, bs "b"); (27, bs "b*"); (28, bs "n");
   (29, bs "W"); (30, bs "W*"); (31, bs "BT"); (32, bs "ET"); (33, bs "Tc"); (34, bs "Tw"); (35, bs "Tz"); (36, bs "TL"); (37, bs "Tf");
   (38, bs "Tr"); (39, bs "Ts"); (40, bs "Td"); (41, bs "TD"); (42, bs "Tm"); (43, bs "T*"); (44, bs "Tj"); (45, bs "TJ"); (46, [39]);
   (47, [34]); (48, bs "d0"); (49, bs "d1"); (50, bs "CS"); (51, bs "cs"); (52, bs "SC"); (53, bs "SCN"); (54, bs "sc"); (55, bs "scn");
   (56, bs "G"); (57, bs "g"); (58, bs "RG"); (59, bs "rg"); (60, bs "K"); (61, bs "k"); (62, bs "sh"); (63, bs "BI"); (64, bs "ID");
   (65, bs "EI"); (66, bs "Do"); (67, bs "MP"); (68, bs "DP"); (69, bs "BMC"); (70, bs "BDC"); (71, bs "EMC"); (72, bs "BX");
   (73, bs "EX")].
