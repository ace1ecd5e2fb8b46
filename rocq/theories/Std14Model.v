(** The metrics of the standard 14 fonts: src/pdfmm/base/PdfFontMetricsStandard14.cpp:19-117, and the widths of the codes of fonts that were read:
    PdfFontObject.cpp:14-55, PdfFont.cpp:409-416. Numbers are exact rationals instead of doubles. *)
From Coq Require Import String QArith.
From Verif Require Import Base TokModel OwnModel ColorModel.
Local Open Scope Z_scope.

(** Standard14FontData, PdfFontMetricsStandard14.h:18-36: the widths of the glyphs and the default width *)
Record font_data := mk_data { d_widths : list Z; d_default : Z }.
(** private/PdfStandard14FontData.cpp:63-294, CHAR_DATA_TIMES_ROMAN, and 7024-7041, the default width *)
Definition times_roman : font_data := mk_data
  [250; 250; 333; 408; 500; 500; 833; 778; 180; 333; 333; 500; 564; 250; 333; 250; 278; 500; 500; 500;
   500; 500; 500; 500; 500; 500; 500; 278; 278; 564; 564; 564; 444; 921; 722; 667; 667; 722; 611; 556;
   722; 722; 333; 389; 722; 611; 889; 722; 722; 556; 722; 667; 556; 611; 722; 722; 944; 722; 722; 611;
   333; 278; 333; 469; 500; 333; 444; 500; 444; 500; 444; 333; 500; 500; 278; 278; 500; 278; 778; 500;
   500; 500; 500; 333; 389; 278; 500; 500; 722; 500; 500; 444; 480; 200; 480; 541; 333; 500; 500; 500;
   500; 200; 500; 333; 760; 276; 500; 564; 760; 333; 400; 564; 300; 300; 333; 500; 453; 250; 333; 300;
   310; 500; 750; 750; 750; 444; 722; 722; 722; 722; 722; 722; 889; 667; 611; 611; 611; 611; 333; 333;
   333; 333; 722; 722; 722; 722; 722; 722; 722; 564; 722; 722; 722; 722; 722; 722; 556; 500; 444; 444;
   444; 444; 444; 444; 667; 444; 444; 444; 444; 444; 278; 278; 278; 278; 500; 500; 500; 500; 500; 500;
   500; 564; 500; 500; 500; 500; 500; 500; 500; 500; 278; 611; 278; 889; 722; 556; 389; 722; 611; 444;
   500; 333; 333; 333; 333; 333; 333; 333; 333; 500; 1000; 333; 333; 333; 444; 444; 444; 500; 500; 350;
   1000; 1000; 333; 333; 167; 722; 980; 564; 556; 556] 1000.
(** private/PdfStandard14FontData.cpp:3576-3814, GetTimesRomanMap: code points and glyphs *)
Definition times_glyphs : list (Z * Z) :=
  [(32, 1); (33, 2); (34, 3); (35, 4); (36, 5); (37, 6); (38, 7); (39, 8); (40, 9); (41, 10);
   (42, 11); (43, 12); (44, 13); (45, 14); (46, 15); (47, 16); (48, 17); (49, 18); (50, 19); (51, 20);
   (52, 21); (53, 22); (54, 23); (55, 24); (56, 25); (57, 26); (58, 27); (59, 28); (60, 29); (61, 30);
   (62, 31); (63, 32); (64, 33); (65, 34); (66, 35); (67, 36); (68, 37); (69, 38); (70, 39); (71, 40);
   (72, 41); (73, 42); (74, 43); (75, 44); (76, 45); (77, 46); (78, 47); (79, 48); (80, 49); (81, 50);
   (82, 51); (83, 52); (84, 53); (85, 54); (86, 55); (87, 56); (88, 57); (89, 58); (90, 59); (91, 60);
   (92, 61); (93, 62); (94, 63); (95, 64); (96, 65); (97, 66); (98, 67); (99, 68); (100, 69); (101, 70);
   (102, 71); (103, 72); (104, 73); (105, 74); (106, 75); (107, 76); (108, 77); (109, 78); (110, 79); (111, 80);
   (112, 81); (113, 82); (114, 83); (115, 84); (116, 85); (117, 86); (118, 87); (119, 88); (120, 89); (121, 90);
   (122, 91); (123, 92); (124, 93); (125, 94); (126, 95); (160, 1); (161, 96); (162, 97); (163, 98); (164, 99);
   (165, 100); (166, 101); (167, 102); (168, 103); (169, 104); (170, 105); (171, 106); (172, 107); (173, 14); (174, 108);
   (175, 109); (176, 110); (177, 111); (178, 112); (179, 113); (180, 114); (181, 115); (182, 116); (183, 117); (184, 118);
   (185, 119); (186, 120); (187, 121); (188, 122); (189, 123); (190, 124); (191, 125); (192, 126); (193, 127); (194, 128);
   (195, 129); (196, 130); (197, 131); (198, 132); (199, 133); (200, 134); (201, 135); (202, 136); (203, 137); (204, 138);
   (205, 139); (206, 140); (207, 141); (208, 142); (209, 143); (210, 144); (211, 145); (212, 146); (213, 147); (214, 148);
   (215, 149); (216, 150); (217, 151); (218, 152); (219, 153); (220, 154); (221, 155); (222, 156); (223, 157); (224, 158);
   (225, 159); (226, 160); (227, 161); (228, 162); (229, 163); (230, 164); (231, 165); (232, 166); (233, 167); (234, 168);
   (235, 169); (236, 170); (237, 171); (238, 172); (239, 173); (240, 174); (241, 175); (242, 176); (243, 177); (244, 178);
   (245, 179); (246, 180); (247, 181); (248, 182); (249, 183); (250, 184); (251, 185); (252, 186); (253, 187); (254, 188);
   (255, 189); (305, 190); (321, 191); (322, 192); (338, 193); (339, 194); (352, 195); (353, 196); (376, 197); (381, 198);
   (382, 199); (402, 200); (710, 201); (711, 202); (713, 109); (728, 203); (729, 204); (730, 205); (731, 206); (732, 207);
   (733, 208); (956, 115); (8211, 209); (8212, 210); (8216, 211); (8217, 212); (8218, 213); (8220, 214); (8221, 215); (8222, 216);
   (8224, 217); (8225, 218); (8226, 219); (8230, 220); (8240, 221); (8249, 222); (8250, 223); (8260, 224); (8364, 225); (8482, 226);
   (8722, 227); (8725, 224); (8729, 117); (64257, 228); (64258, 229)].

(** The numbers of an array as GetReal gives them, PdfVariant.cpp:567-592: it raises on another type *)
Fixpoint reals (l : list obj) : res (list Q) :=
  match l with
  | [] => Ok []
  | o :: t => match real_of o with Some q => do r <- reals t; Ok (q :: r) | None => Err EInvalidDataType end
  end.
(** 50-69 create: the widths of a font that was read. The vector is made with as many zeros as there are elements, and the numbers
    are put after them *)
Definition parse_widths (look : Z * Z -> option obj) (font : option (list (list Z * obj))) : res (option (list Q)) :=
  match font with
  | None => Ok None
  | Some d =>
    match dict_find look (bs "Widths") d with
    | None => Ok None
    | Some (OArr l) => do q <- reals l; Ok (Some (repeat 0%Q (length l) ++ q))
    | Some _ => Err EInvalidDataType
    end
  end.
(** 71-77 GetGlyphCount *)
Definition glyph_count (d : font_data) (p : option (list Q)) : Z :=
  match p with None => Z.of_nat (length (d_widths d)) | Some l => Z.of_nat (length l) end.
(** 79-104 TryGetGlyphWidth; [None]: false *)
Definition thousandth (z : Z) : Q := (inject_Z z / 1000)%Q.
Definition try_width (d : font_data) (p : option (list Q)) (gid : Z) : option Q :=
  match p with
  | None => if Z.of_nat (length (d_widths d)) <=? gid then None else Some (thousandth (nth (Z.to_nat gid) (d_widths d) 0))
  | Some l => if Z.of_nat (length l) <=? gid then None else Some (nth (Z.to_nat gid) l 0%Q)
  end.
(** 111-129 TryGetGID over a map of code points *)
Definition try_gid (map : list (Z * Z)) (cp : Z) : option Z :=
  if 65535 <=? cp then None else option_map snd (find (fun e => fst e =? cp) map).
(** PdfFontMetrics.cpp:29-36, 167-174: GetGlyphWidth, GetDefaultWidth; the default width is unsigned *)
Definition glyph_width (d : font_data) (p : option (list Q)) (gid : Z) : Q :=
  match try_width d p gid with Some w => w | None => thousandth (d_default d) end.

(** What is known of the encoding of the font: the limits that were read, PdfEncoding.cpp:293-300, 418-421, and whether it is simple *)
Record enc := mk_enc { e_limits : option (Z * Z); e_simple : bool }.
(** PdfFontObject.cpp:34-55 tryMapCIDToGID of a font with these metrics; differences of unsigned integers *)
Definition map_code (e : enc) (cid : Z) : res Z :=
  match e_limits e with
  | None => Ok (u32 (cid - 32))
  | Some (first, last) =>
    if e_simple e then if last <? first then Err EValueOutOfRange else Ok (u32 (cid - first)) else Ok cid
  end.
(** PdfFont.cpp:409-416 GetCIDLengthRaw *)
Definition code_width (d : font_data) (p : option (list Q)) (e : enc) (cid : Z) : res Q := do g <- map_code e cid; Ok (glyph_width d p g).
