(** The tables of glyph names and of the predefined encodings, taken from the source by a script. *)
From Coq Require Import String.
From Verif Require Import Base.
Local Open Scope Z_scope.

(** PdfDifferenceEncoding.cpp:33-1325 nameToUnicodeTab without the entry that ends it *)
Definition names_table : list (Z * list Z) := Eval vm_compute in map (fun p => (fst p, bs (snd p))) [
  (33, "!"%string); (35, "#"%string); (36, "$"%string); (37, "%"%string); (38, "&"%string); (39, "'"%string); (40, "("%string); (41, ")"%string);
  (42, "*"%string); (43, "+"%string); (44, ","%string); (45, "-"%string); (46, "."%string); (47, "/"%string); (48, "0"%string); (49, "1"%string);
  (50, "2"%string); (51, "3"%string); (52, "4"%string); (53, "5"%string); (54, "6"%string); (55, "7"%string); (56, "8"%string); (57, "9"%string);
  (58, ":"%string); (59, ";"%string); (60, "<"%string); (61, "="%string); (62, ">"%string); (63, "?"%string); (64, "@"%string); (65, "A"%string);
  (198, "AE"%string); (508, "AEacute"%string); (198, "AEsmall"%string); (193, "Aacute"%string); (193, "Aacutesmall"%string); (258, "Abreve"%string);
  (194, "Acircumflex"%string); (194, "Acircumflexsmall"%string); (63177, "Acute"%string); (63177, "Acutesmall"%string); (196, "Adieresis"%string);
  (196, "Adieresissmall"%string); (192, "Agrave"%string); (192, "Agravesmall"%string); (913, "Alpha"%string); (902, "Alphatonos"%string);
  (256, "Amacron"%string); (260, "Aogonek"%string); (197, "Aring"%string); (506, "Aringacute"%string); (197, "Aringsmall"%string);
  (65, "Asmall"%string); (195, "Atilde"%string); (195, "Atildesmall"%string); (66, "B"%string); (914, "Beta"%string); (63220, "Brevesmall"%string);
  (66, "Bsmall"%string); (67, "C"%string); (262, "Cacute"%string); (63178, "Caron"%string); (63178, "Caronsmall"%string); (268, "Ccaron"%string);
  (199, "Ccedilla"%string); (199, "Ccedillasmall"%string); (264, "Ccircumflex"%string); (266, "Cdotaccent"%string); (63416, "Cedillasmall"%string);
  (935, "Chi"%string); (63222, "Circumflexsmall"%string); (67, "Csmall"%string); (68, "D"%string); (270, "Dcaron"%string); (272, "Dcroat"%string);
  (8710, "Delta"%string); (63179, "Dieresis"%string); (63180, "DieresisAcute"%string); (63181, "DieresisGrave"%string);
  (63179, "Dieresissmall"%string); (63223, "Dotaccentsmall"%string); (68, "Dsmall"%string); (69, "E"%string); (201, "Eacute"%string);
  (201, "Eacutesmall"%string); (276, "Ebreve"%string); (282, "Ecaron"%string); (202, "Ecircumflex"%string); (202, "Ecircumflexsmall"%string);
  (203, "Edieresis"%string); (203, "Edieresissmall"%string); (278, "Edotaccent"%string); (200, "Egrave"%string); (200, "Egravesmall"%string);
  (274, "Emacron"%string); (330, "Eng"%string); (280, "Eogonek"%string); (917, "Epsilon"%string); (904, "Epsilontonos"%string);
  (69, "Esmall"%string); (919, "Eta"%string); (905, "Etatonos"%string); (208, "Eth"%string); (208, "Ethsmall"%string); (8364, "Euro"%string);
  (70, "F"%string); (70, "Fsmall"%string); (71, "G"%string); (915, "Gamma"%string); (286, "Gbreve"%string); (486, "Gcaron"%string);
  (284, "Gcircumflex"%string); (290, "Gcommaaccent"%string); (288, "Gdotaccent"%string); (63182, "Grave"%string); (63182, "Gravesmall"%string);
  (71, "Gsmall"%string); (72, "H"%string); (9679, "H18533"%string); (9642, "H18543"%string); (9643, "H18551"%string); (9633, "H22073"%string);
  (294, "Hbar"%string); (292, "Hcircumflex"%string); (72, "Hsmall"%string); (63183, "Hungarumlaut"%string); (63183, "Hungarumlautsmall"%string);
  (73, "I"%string); (306, "IJ"%string); (205, "Iacute"%string); (205, "Iacutesmall"%string); (300, "Ibreve"%string); (206, "Icircumflex"%string);
  (206, "Icircumflexsmall"%string); (207, "Idieresis"%string); (207, "Idieresissmall"%string); (304, "Idotaccent"%string); (8465, "Ifraktur"%string);
  (204, "Igrave"%string); (204, "Igravesmall"%string); (298, "Imacron"%string); (302, "Iogonek"%string); (921, "Iota"%string);
  (938, "Iotadieresis"%string); (906, "Iotatonos"%string); (73, "Ismall"%string); (296, "Itilde"%string); (74, "J"%string);
  (308, "Jcircumflex"%string); (74, "Jsmall"%string); (75, "K"%string); (922, "Kappa"%string); (310, "Kcommaaccent"%string); (75, "Ksmall"%string);
  (76, "L"%string); (63167, "LL"%string); (313, "Lacute"%string); (923, "Lambda"%string); (317, "Lcaron"%string); (315, "Lcommaaccent"%string);
  (319, "Ldot"%string); (321, "Lslash"%string); (321, "Lslashsmall"%string); (76, "Lsmall"%string); (77, "M"%string); (63184, "Macron"%string);
  (63184, "Macronsmall"%string); (77, "Msmall"%string); (924, "Mu"%string); (78, "N"%string); (323, "Nacute"%string); (327, "Ncaron"%string);
  (325, "Ncommaaccent"%string); (78, "Nsmall"%string); (209, "Ntilde"%string); (209, "Ntildesmall"%string); (925, "Nu"%string); (79, "O"%string);
  (338, "OE"%string); (338, "OEsmall"%string); (211, "Oacute"%string); (211, "Oacutesmall"%string); (334, "Obreve"%string);
  (212, "Ocircumflex"%string); (212, "Ocircumflexsmall"%string); (214, "Odieresis"%string); (214, "Odieresissmall"%string);
  (63227, "Ogoneksmall"%string); (210, "Ograve"%string); (210, "Ogravesmall"%string); (416, "Ohorn"%string); (336, "Ohungarumlaut"%string);
  (332, "Omacron"%string); (8486, "Omega"%string); (911, "Omegatonos"%string); (927, "Omicron"%string); (908, "Omicrontonos"%string);
  (216, "Oslash"%string); (510, "Oslashacute"%string); (216, "Oslashsmall"%string); (79, "Osmall"%string); (213, "Otilde"%string);
  (213, "Otildesmall"%string); (80, "P"%string); (934, "Phi"%string); (928, "Pi"%string); (936, "Psi"%string); (80, "Psmall"%string);
  (81, "Q"%string); (81, "Qsmall"%string); (82, "R"%string); (340, "Racute"%string); (344, "Rcaron"%string); (342, "Rcommaaccent"%string);
  (8476, "Rfraktur"%string); (929, "Rho"%string); (63228, "Ringsmall"%string); (82, "Rsmall"%string); (83, "S"%string); (9484, "SF010000"%string);
  (9492, "SF020000"%string); (9488, "SF030000"%string); (9496, "SF040000"%string); (9532, "SF050000"%string); (9516, "SF060000"%string);
  (9524, "SF070000"%string); (9500, "SF080000"%string); (9508, "SF090000"%string); (9472, "SF100000"%string); (9474, "SF110000"%string);
  (9569, "SF190000"%string); (9570, "SF200000"%string); (9558, "SF210000"%string); (9557, "SF220000"%string); (9571, "SF230000"%string);
  (9553, "SF240000"%string); (9559, "SF250000"%string); (9565, "SF260000"%string); (9564, "SF270000"%string); (9563, "SF280000"%string);
  (9566, "SF360000"%string); (9567, "SF370000"%string); (9562, "SF380000"%string); (9556, "SF390000"%string); (9577, "SF400000"%string);
  (9574, "SF410000"%string); (9568, "SF420000"%string); (9552, "SF430000"%string); (9580, "SF440000"%string); (9575, "SF450000"%string);
  (9576, "SF460000"%string); (9572, "SF470000"%string); (9573, "SF480000"%string); (9561, "SF490000"%string); (9560, "SF500000"%string);
  (9554, "SF510000"%string); (9555, "SF520000"%string); (9579, "SF530000"%string); (9578, "SF540000"%string); (346, "Sacute"%string);
  (352, "Scaron"%string); (352, "Scaronsmall"%string); (350, "Scedilla"%string); (348, "Scircumflex"%string); (536, "Scommaaccent"%string);
  (931, "Sigma"%string); (83, "Ssmall"%string); (84, "T"%string); (932, "Tau"%string); (358, "Tbar"%string); (356, "Tcaron"%string);
  (354, "Tcommaaccent"%string); (920, "Theta"%string); (222, "Thorn"%string); (222, "Thornsmall"%string); (63230, "Tildesmall"%string);
  (84, "Tsmall"%string); (85, "U"%string); (218, "Uacute"%string); (218, "Uacutesmall"%string); (364, "Ubreve"%string); (219, "Ucircumflex"%string);
  (219, "Ucircumflexsmall"%string); (220, "Udieresis"%string); (220, "Udieresissmall"%string); (217, "Ugrave"%string); (217, "Ugravesmall"%string);
  (431, "Uhorn"%string); (368, "Uhungarumlaut"%string); (362, "Umacron"%string); (370, "Uogonek"%string); (933, "Upsilon"%string);
  (978, "Upsilon1"%string); (939, "Upsilondieresis"%string); (910, "Upsilontonos"%string); (366, "Uring"%string); (85, "Usmall"%string);
  (360, "Utilde"%string); (86, "V"%string); (86, "Vsmall"%string); (87, "W"%string); (7810, "Wacute"%string); (372, "Wcircumflex"%string);
  (7812, "Wdieresis"%string); (7808, "Wgrave"%string); (87, "Wsmall"%string); (88, "X"%string); (926, "Xi"%string); (88, "Xsmall"%string);
  (89, "Y"%string); (221, "Yacute"%string); (221, "Yacutesmall"%string); (374, "Ycircumflex"%string); (376, "Ydieresis"%string);
  (376, "Ydieresissmall"%string); (7922, "Ygrave"%string); (89, "Ysmall"%string); (90, "Z"%string); (377, "Zacute"%string); (381, "Zcaron"%string);
  (381, "Zcaronsmall"%string); (379, "Zdotaccent"%string); (918, "Zeta"%string); (90, "Zsmall"%string); (34, """"%string); (92, "\"%string);
  (93, "]"%string); (94, "^"%string); (95, "_"%string); (96, "`"%string); (97, "a"%string); (225, "aacute"%string); (259, "abreve"%string);
  (226, "acircumflex"%string); (180, "acute"%string); (769, "acutecomb"%string); (228, "adieresis"%string); (230, "ae"%string);
  (509, "aeacute"%string); (8213, "afii00208"%string); (1040, "afii10017"%string); (1041, "afii10018"%string); (1042, "afii10019"%string);
  (1043, "afii10020"%string); (1044, "afii10021"%string); (1045, "afii10022"%string); (1025, "afii10023"%string); (1046, "afii10024"%string);
  (1047, "afii10025"%string); (1048, "afii10026"%string); (1049, "afii10027"%string); (1050, "afii10028"%string); (1051, "afii10029"%string);
  (1052, "afii10030"%string); (1053, "afii10031"%string); (1054, "afii10032"%string); (1055, "afii10033"%string); (1056, "afii10034"%string);
  (1057, "afii10035"%string); (1058, "afii10036"%string); (1059, "afii10037"%string); (1060, "afii10038"%string); (1061, "afii10039"%string);
  (1062, "afii10040"%string); (1063, "afii10041"%string); (1064, "afii10042"%string); (1065, "afii10043"%string); (1066, "afii10044"%string);
  (1067, "afii10045"%string); (1068, "afii10046"%string); (1069, "afii10047"%string); (1070, "afii10048"%string); (1071, "afii10049"%string);
  (1168, "afii10050"%string); (1026, "afii10051"%string); (1027, "afii10052"%string); (1028, "afii10053"%string); (1029, "afii10054"%string);
  (1030, "afii10055"%string); (1031, "afii10056"%string); (1032, "afii10057"%string); (1033, "afii10058"%string); (1034, "afii10059"%string);
  (1035, "afii10060"%string); (1036, "afii10061"%string); (1038, "afii10062"%string); (63172, "afii10063"%string); (63173, "afii10064"%string);
  (1072, "afii10065"%string); (1073, "afii10066"%string); (1074, "afii10067"%string); (1075, "afii10068"%string); (1076, "afii10069"%string);
  (1077, "afii10070"%string); (1105, "afii10071"%string); (1078, "afii10072"%string); (1079, "afii10073"%string); (1080, "afii10074"%string);
  (1081, "afii10075"%string); (1082, "afii10076"%string); (1083, "afii10077"%string); (1084, "afii10078"%string); (1085, "afii10079"%string);
  (1086, "afii10080"%string); (1087, "afii10081"%string); (1088, "afii10082"%string); (1089, "afii10083"%string); (1090, "afii10084"%string);
  (1091, "afii10085"%string); (1092, "afii10086"%string); (1093, "afii10087"%string); (1094, "afii10088"%string); (1095, "afii10089"%string);
  (1096, "afii10090"%string); (1097, "afii10091"%string); (1098, "afii10092"%string); (1099, "afii10093"%string); (1100, "afii10094"%string);
  (1101, "afii10095"%string); (1102, "afii10096"%string); (1103, "afii10097"%string); (1169, "afii10098"%string); (1106, "afii10099"%string);
  (1107, "afii10100"%string); (1108, "afii10101"%string); (1109, "afii10102"%string); (1110, "afii10103"%string); (1111, "afii10104"%string);
  (1112, "afii10105"%string); (1113, "afii10106"%string); (1114, "afii10107"%string); (1115, "afii10108"%string); (1116, "afii10109"%string);
  (1118, "afii10110"%string); (1039, "afii10145"%string); (1122, "afii10146"%string); (1138, "afii10147"%string); (1140, "afii10148"%string);
  (63174, "afii10192"%string); (1119, "afii10193"%string); (1123, "afii10194"%string); (1139, "afii10195"%string); (1141, "afii10196"%string);
  (63175, "afii10831"%string); (63176, "afii10832"%string); (1241, "afii10846"%string); (8206, "afii299"%string); (8207, "afii300"%string);
  (8205, "afii301"%string); (1642, "afii57381"%string); (1548, "afii57388"%string); (1632, "afii57392"%string); (1633, "afii57393"%string);
  (1634, "afii57394"%string); (1635, "afii57395"%string); (1636, "afii57396"%string); (1637, "afii57397"%string); (1638, "afii57398"%string);
  (1639, "afii57399"%string); (1640, "afii57400"%string); (1641, "afii57401"%string); (1563, "afii57403"%string); (1567, "afii57407"%string);
  (1569, "afii57409"%string); (1570, "afii57410"%string); (1571, "afii57411"%string); (1572, "afii57412"%string); (1573, "afii57413"%string);
  (1574, "afii57414"%string); (1575, "afii57415"%string); (1576, "afii57416"%string); (1577, "afii57417"%string); (1578, "afii57418"%string);
  (1579, "afii57419"%string); (1580, "afii57420"%string); (1581, "afii57421"%string); (1582, "afii57422"%string); (1583, "afii57423"%string);
  (1584, "afii57424"%string); (1585, "afii57425"%string); (1586, "afii57426"%string); (1587, "afii57427"%string); (1588, "afii57428"%string);
  (1589, "afii57429"%string); (1590, "afii57430"%string); (1591, "afii57431"%string); (1592, "afii57432"%string); (1593, "afii57433"%string);
  (1594, "afii57434"%string); (1600, "afii57440"%string); (1601, "afii57441"%string); (1602, "afii57442"%string); (1603, "afii57443"%string);
  (1604, "afii57444"%string); (1605, "afii57445"%string); (1606, "afii57446"%string); (1608, "afii57448"%string); (1609, "afii57449"%string);
  (1610, "afii57450"%string); (1611, "afii57451"%string); (1612, "afii57452"%string); (1613, "afii57453"%string); (1614, "afii57454"%string);
  (1615, "afii57455"%string); (1616, "afii57456"%string); (1617, "afii57457"%string); (1618, "afii57458"%string); (1607, "afii57470"%string);
  (1700, "afii57505"%string); (1662, "afii57506"%string); (1670, "afii57507"%string); (1688, "afii57508"%string); (1711, "afii57509"%string);
  (1657, "afii57511"%string); (1672, "afii57512"%string); (1681, "afii57513"%string); (1722, "afii57514"%string); (1746, "afii57519"%string);
  (1749, "afii57534"%string); (8362, "afii57636"%string); (1470, "afii57645"%string); (1475, "afii57658"%string); (1488, "afii57664"%string);
  (1489, "afii57665"%string); (1490, "afii57666"%string); (1491, "afii57667"%string); (1492, "afii57668"%string); (1493, "afii57669"%string);
  (1494, "afii57670"%string); (1495, "afii57671"%string); (1496, "afii57672"%string); (1497, "afii57673"%string); (1498, "afii57674"%string);
  (1499, "afii57675"%string); (1500, "afii57676"%string); (1501, "afii57677"%string); (1502, "afii57678"%string); (1503, "afii57679"%string);
  (1504, "afii57680"%string); (1505, "afii57681"%string); (1506, "afii57682"%string); (1507, "afii57683"%string); (1508, "afii57684"%string);
  (1509, "afii57685"%string); (1510, "afii57686"%string); (1511, "afii57687"%string); (1512, "afii57688"%string); (1513, "afii57689"%string);
  (1514, "afii57690"%string); (64298, "afii57694"%string); (64299, "afii57695"%string); (64331, "afii57700"%string); (64287, "afii57705"%string);
  (1520, "afii57716"%string); (1521, "afii57717"%string); (1522, "afii57718"%string); (64309, "afii57723"%string); (1460, "afii57793"%string);
  (1461, "afii57794"%string); (1462, "afii57795"%string); (1467, "afii57796"%string); (1464, "afii57797"%string); (1463, "afii57798"%string);
  (1456, "afii57799"%string); (1458, "afii57800"%string); (1457, "afii57801"%string); (1459, "afii57802"%string); (1474, "afii57803"%string);
  (1473, "afii57804"%string); (1465, "afii57806"%string); (1468, "afii57807"%string); (1469, "afii57839"%string); (1471, "afii57841"%string);
  (1472, "afii57842"%string); (700, "afii57929"%string); (8453, "afii61248"%string); (8467, "afii61289"%string); (8470, "afii61352"%string);
  (8236, "afii61573"%string); (8237, "afii61574"%string); (8238, "afii61575"%string); (8204, "afii61664"%string); (1645, "afii63167"%string);
  (701, "afii64937"%string); (224, "agrave"%string); (8501, "aleph"%string); (945, "alpha"%string); (940, "alphatonos"%string);
  (257, "amacron"%string); (38, "ampersand"%string); (38, "ampersandsmall"%string); (8736, "angle"%string); (9001, "angleleft"%string);
  (9002, "angleright"%string); (903, "anoteleia"%string); (261, "aogonek"%string); (8776, "approxequal"%string); (229, "aring"%string);
  (507, "aringacute"%string); (8596, "arrowboth"%string); (8660, "arrowdblboth"%string); (8659, "arrowdbldown"%string);
  (8656, "arrowdblleft"%string); (8658, "arrowdblright"%string); (8657, "arrowdblup"%string); (8595, "arrowdown"%string);
  (63719, "arrowhorizex"%string); (8592, "arrowleft"%string); (8594, "arrowright"%string); (8593, "arrowup"%string); (8597, "arrowupdn"%string);
  (8616, "arrowupdnbse"%string); (63718, "arrowvertex"%string); (94, "asciicircum"%string); (126, "asciitilde"%string); (42, "asterisk"%string);
  (8727, "asteriskmath"%string); (63209, "asuperior"%string); (64, "at"%string); (227, "atilde"%string); (98, "b"%string); (92, "backslash"%string);
  (124, "bar"%string); (946, "beta"%string); (9608, "block"%string); (63732, "braceex"%string); (123, "braceleft"%string);
  (63731, "braceleftbt"%string); (63730, "braceleftmid"%string); (63729, "bracelefttp"%string); (125, "braceright"%string);
  (63742, "bracerightbt"%string); (63741, "bracerightmid"%string); (63740, "bracerighttp"%string); (91, "bracketleft"%string);
  (63728, "bracketleftbt"%string); (63727, "bracketleftex"%string); (63726, "bracketlefttp"%string); (93, "bracketright"%string);
  (63739, "bracketrightbt"%string); (63738, "bracketrightex"%string); (63737, "bracketrighttp"%string); (728, "breve"%string);
  (166, "brokenbar"%string); (63210, "bsuperior"%string); (8226, "bullet"%string); (99, "c"%string); (263, "cacute"%string); (711, "caron"%string);
  (8629, "carriagereturn"%string); (269, "ccaron"%string); (231, "ccedilla"%string); (265, "ccircumflex"%string); (267, "cdotaccent"%string);
  (184, "cedilla"%string); (162, "cent"%string); (63199, "centinferior"%string); (162, "centoldstyle"%string); (63200, "centsuperior"%string);
  (967, "chi"%string); (9675, "circle"%string); (8855, "circlemultiply"%string); (8853, "circleplus"%string); (710, "circumflex"%string);
  (9827, "club"%string); (58, "colon"%string); (8353, "colonmonetary"%string); (44, "comma"%string); (63171, "commaaccent"%string);
  (63201, "commainferior"%string); (63202, "commasuperior"%string); (8773, "congruent"%string); (169, "copyright"%string);
  (169, "copyrightsans"%string); (169, "copyrightserif"%string); (164, "currency"%string); (63185, "cyrBreve"%string); (63186, "cyrFlex"%string);
  (63188, "cyrbreve"%string); (63189, "cyrflex"%string); (100, "d"%string); (8224, "dagger"%string); (8225, "daggerdbl"%string);
  (63187, "dblGrave"%string); (63190, "dblgrave"%string); (271, "dcaron"%string); (273, "dcroat"%string); (176, "degree"%string);
  (948, "delta"%string); (9830, "diamond"%string); (168, "dieresis"%string); (63191, "dieresisacute"%string); (63192, "dieresisgrave"%string);
  (901, "dieresistonos"%string); (247, "divide"%string); (9619, "dkshade"%string); (9604, "dnblock"%string); (36, "dollar"%string);
  (63203, "dollarinferior"%string); (36, "dollaroldstyle"%string); (63204, "dollarsuperior"%string); (8363, "dong"%string);
  (729, "dotaccent"%string); (803, "dotbelowcomb"%string); (305, "dotlessi"%string); (63166, "dotlessj"%string); (8901, "dotmath"%string);
  (63211, "dsuperior"%string); (101, "e"%string); (233, "eacute"%string); (277, "ebreve"%string); (283, "ecaron"%string);
  (234, "ecircumflex"%string); (235, "edieresis"%string); (279, "edotaccent"%string); (232, "egrave"%string); (56, "eight"%string);
  (8328, "eightinferior"%string); (56, "eightoldstyle"%string); (8312, "eightsuperior"%string); (8712, "element"%string); (8230, "ellipsis"%string);
  (275, "emacron"%string); (8212, "emdash"%string); (8709, "emptyset"%string); (8211, "endash"%string); (331, "eng"%string); (281, "eogonek"%string);
  (949, "epsilon"%string); (941, "epsilontonos"%string); (61, "equal"%string); (8801, "equivalence"%string); (8494, "estimated"%string);
  (63212, "esuperior"%string); (951, "eta"%string); (942, "etatonos"%string); (240, "eth"%string); (33, "exclam"%string); (8252, "exclamdbl"%string);
  (161, "exclamdown"%string); (161, "exclamdownsmall"%string); (33, "exclamleft"%string); (33, "exclamsmall"%string); (8707, "existential"%string);
  (102, "f"%string); (64256, "ff"%string); (64259, "ffi"%string); (64260, "ffl"%string); (64257, "fi"%string); (64256, "f_f"%string);
  (64259, "f_f_i"%string); (64260, "f_f_l"%string); (64257, "f_i"%string); (9792, "female"%string); (8210, "figuredash"%string);
  (9632, "filledbox"%string); (9644, "filledrect"%string); (53, "five"%string); (8541, "fiveeighths"%string); (8325, "fiveinferior"%string);
  (53, "fiveoldstyle"%string); (8309, "fivesuperior"%string); (64258, "fl"%string); (64258, "f_l"%string); (402, "florin"%string);
  (52, "four"%string); (8324, "fourinferior"%string); (52, "fouroldstyle"%string); (8308, "foursuperior"%string); (8260, "fraction"%string);
  (8355, "franc"%string); (103, "g"%string); (947, "gamma"%string); (287, "gbreve"%string); (487, "gcaron"%string); (285, "gcircumflex"%string);
  (291, "gcommaaccent"%string); (289, "gdotaccent"%string); (223, "germandbls"%string); (8711, "gradient"%string); (96, "grave"%string);
  (768, "gravecomb"%string); (62, "greater"%string); (8805, "greaterequal"%string); (171, "guillemotleft"%string); (187, "guillemotright"%string);
  (8249, "guilsinglleft"%string); (8250, "guilsinglright"%string); (104, "h"%string); (295, "hbar"%string); (293, "hcircumflex"%string);
  (9829, "heart"%string); (777, "hookabovecomb"%string); (8962, "house"%string); (733, "hungarumlaut"%string); (45, "hyphen"%string);
  (63205, "hypheninferior"%string); (63206, "hyphensuperior"%string); (105, "i"%string); (237, "iacute"%string); (301, "ibreve"%string);
  (238, "icircumflex"%string); (239, "idieresis"%string); (236, "igrave"%string); (307, "ij"%string); (299, "imacron"%string);
  (8734, "infinity"%string); (8747, "integral"%string); (8993, "integralbt"%string); (63733, "integralex"%string); (8992, "integraltp"%string);
  (8745, "intersection"%string); (9688, "invbullet"%string); (9689, "invcircle"%string); (9787, "invsmileface"%string); (303, "iogonek"%string);
  (953, "iota"%string); (970, "iotadieresis"%string); (912, "iotadieresistonos"%string); (943, "iotatonos"%string); (63213, "isuperior"%string);
  (297, "itilde"%string); (106, "j"%string); (309, "jcircumflex"%string); (107, "k"%string); (954, "kappa"%string); (311, "kcommaaccent"%string);
  (312, "kgreenlandic"%string); (108, "l"%string); (314, "lacute"%string); (955, "lambda"%string); (318, "lcaron"%string);
  (316, "lcommaaccent"%string); (320, "ldot"%string); (60, "less"%string); (8804, "lessequal"%string); (9612, "lfblock"%string);
  (8356, "lira"%string); (63168, "ll"%string); (8743, "logicaland"%string); (172, "logicalnot"%string); (8744, "logicalor"%string);
  (383, "longs"%string); (9674, "lozenge"%string); (322, "lslash"%string); (63214, "lsuperior"%string); (9617, "ltshade"%string); (109, "m"%string);
  (175, "macron"%string); (9794, "male"%string); (8722, "minus"%string); (8242, "minute"%string); (63215, "msuperior"%string); (181, "mu"%string);
  (215, "multiply"%string); (9834, "musicalnote"%string); (9835, "musicalnotedbl"%string); (110, "n"%string); (324, "nacute"%string);
  (329, "napostrophe"%string); (160, "nbspace"%string); (328, "ncaron"%string); (326, "ncommaaccent"%string); (57, "nine"%string);
  (8329, "nineinferior"%string); (57, "nineoldstyle"%string); (8313, "ninesuperior"%string); (160, "nonbreakingspace"%string);
  (8713, "notelement"%string); (8800, "notequal"%string); (8836, "notsubset"%string); (8319, "nsuperior"%string); (241, "ntilde"%string);
  (957, "nu"%string); (35, "numbersign"%string); (111, "o"%string); (243, "oacute"%string); (335, "obreve"%string); (244, "ocircumflex"%string);
  (246, "odieresis"%string); (339, "oe"%string); (731, "ogonek"%string); (242, "ograve"%string); (417, "ohorn"%string);
  (337, "ohungarumlaut"%string); (333, "omacron"%string); (969, "omega"%string); (982, "omega1"%string); (974, "omegatonos"%string);
  (959, "omicron"%string); (972, "omicrontonos"%string); (49, "one"%string); (8228, "onedotenleader"%string); (8539, "oneeighth"%string);
  (63196, "onefitted"%string); (189, "onehalf"%string); (8321, "oneinferior"%string); (49, "oneoldstyle"%string); (188, "onequarter"%string);
  (185, "onesuperior"%string); (8531, "onethird"%string); (9702, "openbullet"%string); (170, "ordfeminine"%string); (186, "ordmasculine"%string);
  (8735, "orthogonal"%string); (248, "oslash"%string); (511, "oslashacute"%string); (63216, "osuperior"%string); (245, "otilde"%string);
  (112, "p"%string); (182, "paragraph"%string); (40, "parenleft"%string); (63725, "parenleftbt"%string); (63724, "parenleftex"%string);
  (8333, "parenleftinferior"%string); (8317, "parenleftsuperior"%string); (63723, "parenlefttp"%string); (41, "parenright"%string);
  (63736, "parenrightbt"%string); (63735, "parenrightex"%string); (8334, "parenrightinferior"%string); (8318, "parenrightsuperior"%string);
  (63734, "parenrighttp"%string); (8706, "partialdiff"%string); (37, "percent"%string); (46, "period"%string); (183, "periodcentered"%string);
  (63207, "periodinferior"%string); (63208, "periodsuperior"%string); (8869, "perpendicular"%string); (8240, "perthousand"%string);
  (8359, "peseta"%string); (966, "phi"%string); (981, "phi1"%string); (960, "pi"%string); (43, "plus"%string); (177, "plusminus"%string);
  (8478, "prescription"%string); (8719, "product"%string); (8834, "propersubset"%string); (8835, "propersuperset"%string);
  (8733, "proportional"%string); (968, "psi"%string); (113, "q"%string); (63, "question"%string); (191, "questiondown"%string);
  (191, "questiondownsmall"%string); (63, "questionsmall"%string); (34, "quotedbl"%string); (8222, "quotedblbase"%string);
  (8220, "quotedblleft"%string); (8221, "quotedblright"%string); (8216, "quoteleft"%string); (8219, "quotereversed"%string);
  (8217, "quoteright"%string); (8218, "quotesinglbase"%string); (39, "quotesingle"%string); (114, "r"%string); (341, "racute"%string);
  (8730, "radical"%string); (63717, "radicalex"%string); (345, "rcaron"%string); (343, "rcommaaccent"%string); (8838, "reflexsubset"%string);
  (8839, "reflexsuperset"%string); (174, "registered"%string); (174, "registersans"%string); (174, "registerserif"%string);
  (8976, "revlogicalnot"%string); (961, "rho"%string); (730, "ring"%string); (63217, "rsuperior"%string); (9616, "rtblock"%string);
  (63197, "rupiah"%string); (115, "s"%string); (347, "sacute"%string); (353, "scaron"%string); (351, "scedilla"%string); (349, "scircumflex"%string);
  (537, "scommaaccent"%string); (8243, "second"%string); (167, "section"%string); (59, "semicolon"%string); (55, "seven"%string);
  (8542, "seveneighths"%string); (8327, "seveninferior"%string); (55, "sevenoldstyle"%string); (8311, "sevensuperior"%string);
  (9618, "shade"%string); (963, "sigma"%string); (962, "sigma1"%string); (8764, "similar"%string); (54, "six"%string); (8326, "sixinferior"%string);
  (54, "sixoldstyle"%string); (8310, "sixsuperior"%string); (47, "slash"%string); (9786, "smileface"%string); (32, "space"%string);
  (9824, "spade"%string); (63218, "ssuperior"%string); (163, "sterling"%string); (8715, "suchthat"%string); (8721, "summation"%string);
  (9788, "sun"%string); (116, "t"%string); (964, "tau"%string); (359, "tbar"%string); (357, "tcaron"%string); (355, "tcommaaccent"%string);
  (8756, "therefore"%string); (952, "theta"%string); (977, "theta1"%string); (254, "thorn"%string); (51, "three"%string);
  (8540, "threeeighths"%string); (8323, "threeinferior"%string); (51, "threeoldstyle"%string); (190, "threequarters"%string);
  (63198, "threequartersemdash"%string); (179, "threesuperior"%string); (732, "tilde"%string); (771, "tildecomb"%string); (900, "tonos"%string);
  (8482, "trademark"%string); (8482, "trademarksans"%string); (8482, "trademarkserif"%string); (9660, "triagdn"%string); (9668, "triaglf"%string);
  (9658, "triagrt"%string); (9650, "triagup"%string); (63219, "tsuperior"%string); (50, "two"%string); (8229, "twodotenleader"%string);
  (8322, "twoinferior"%string); (50, "twooldstyle"%string); (178, "twosuperior"%string); (8532, "twothirds"%string); (117, "u"%string);
  (250, "uacute"%string); (365, "ubreve"%string); (251, "ucircumflex"%string); (252, "udieresis"%string); (249, "ugrave"%string);
  (432, "uhorn"%string); (369, "uhungarumlaut"%string); (363, "umacron"%string); (95, "underscore"%string); (8215, "underscoredbl"%string);
  (8746, "union"%string); (8704, "universal"%string); (371, "uogonek"%string); (9600, "upblock"%string); (965, "upsilon"%string);
  (971, "upsilondieresis"%string); (944, "upsilondieresistonos"%string); (973, "upsilontonos"%string); (367, "uring"%string); (361, "utilde"%string);
  (118, "v"%string); (119, "w"%string); (7811, "wacute"%string); (373, "wcircumflex"%string); (7813, "wdieresis"%string);
  (8472, "weierstrass"%string); (7809, "wgrave"%string); (120, "x"%string); (958, "xi"%string); (121, "y"%string); (253, "yacute"%string);
  (375, "ycircumflex"%string); (255, "ydieresis"%string); (165, "yen"%string); (7923, "ygrave"%string); (122, "z"%string); (378, "zacute"%string);
  (382, "zcaron"%string); (380, "zdotaccent"%string); (48, "zero"%string); (8320, "zeroinferior"%string); (48, "zerooldstyle"%string);
  (8304, "zerosuperior"%string); (950, "zeta"%string); (123, "{"%string); (124, "|"%string); (125, "}"%string); (126, "~"%string);
  (10078, "a100"%string); (10081, "a101"%string); (10082, "a102"%string); (10083, "a103"%string); (10084, "a104"%string); (10000, "a105"%string);
  (10085, "a106"%string); (10086, "a107"%string); (10087, "a108"%string); (9824, "a109"%string); (10017, "a10"%string); (9829, "a110"%string);
  (9830, "a111"%string); (9827, "a112"%string); (9993, "a117"%string); (9992, "a118"%string); (9991, "a119"%string); (9755, "a11"%string);
  (9312, "a120"%string); (9313, "a121"%string); (9314, "a122"%string); (9315, "a123"%string); (9316, "a124"%string); (9317, "a125"%string);
  (9318, "a126"%string); (9319, "a127"%string); (9320, "a128"%string); (9321, "a129"%string); (9758, "a12"%string); (10102, "a130"%string);
  (10103, "a131"%string); (10104, "a132"%string); (10105, "a133"%string); (10106, "a134"%string); (10107, "a135"%string); (10108, "a136"%string);
  (10109, "a137"%string); (10110, "a138"%string); (10111, "a139"%string); (9996, "a13"%string); (10112, "a140"%string); (10113, "a141"%string);
  (10114, "a142"%string); (10115, "a143"%string); (10116, "a144"%string); (10117, "a145"%string); (10118, "a146"%string); (10119, "a147"%string);
  (10120, "a148"%string); (10121, "a149"%string); (9997, "a14"%string); (10122, "a150"%string); (10123, "a151"%string); (10124, "a152"%string);
  (10125, "a153"%string); (10126, "a154"%string); (10127, "a155"%string); (10128, "a156"%string); (10129, "a157"%string); (10130, "a158"%string);
  (10131, "a159"%string); (9998, "a15"%string); (10132, "a160"%string); (8594, "a161"%string); (10147, "a162"%string); (8596, "a163"%string);
  (8597, "a164"%string); (10137, "a165"%string); (10139, "a166"%string); (10140, "a167"%string); (10141, "a168"%string); (10142, "a169"%string);
  (9999, "a16"%string); (10143, "a170"%string); (10144, "a171"%string); (10145, "a172"%string); (10146, "a173"%string); (10148, "a174"%string);
  (10149, "a175"%string); (10150, "a176"%string); (10151, "a177"%string); (10152, "a178"%string); (10153, "a179"%string); (10001, "a17"%string);
  (10155, "a180"%string); (10157, "a181"%string); (10159, "a182"%string); (10162, "a183"%string); (10163, "a184"%string); (10165, "a185"%string);
  (10168, "a186"%string); (10170, "a187"%string); (10171, "a188"%string); (10172, "a189"%string); (10002, "a18"%string); (10173, "a190"%string);
  (10174, "a191"%string); (10138, "a192"%string); (10154, "a193"%string); (10166, "a194"%string); (10169, "a195"%string); (10136, "a196"%string);
  (10164, "a197"%string); (10167, "a198"%string); (10156, "a199"%string); (10003, "a19"%string); (9985, "a1"%string); (10158, "a200"%string);
  (10161, "a201"%string); (9987, "a202"%string); (10064, "a203"%string); (10066, "a204"%string); (10094, "a205"%string); (10096, "a206"%string);
  (10004, "a20"%string); (10005, "a21"%string); (10006, "a22"%string); (10007, "a23"%string); (10008, "a24"%string); (10009, "a25"%string);
  (10010, "a26"%string); (10011, "a27"%string); (10012, "a28"%string); (10018, "a29"%string); (9986, "a2"%string); (10019, "a30"%string);
  (10020, "a31"%string); (10021, "a32"%string); (10022, "a33"%string); (10023, "a34"%string); (9733, "a35"%string); (10025, "a36"%string);
  (10026, "a37"%string); (10027, "a38"%string); (10028, "a39"%string); (9988, "a3"%string); (10029, "a40"%string); (10030, "a41"%string);
  (10031, "a42"%string); (10032, "a43"%string); (10033, "a44"%string); (10034, "a45"%string); (10035, "a46"%string); (10036, "a47"%string);
  (10037, "a48"%string); (10038, "a49"%string); (9742, "a4"%string); (10039, "a50"%string); (10040, "a51"%string); (10041, "a52"%string);
  (10042, "a53"%string); (10043, "a54"%string); (10044, "a55"%string); (10045, "a56"%string); (10046, "a57"%string); (10047, "a58"%string);
  (10048, "a59"%string); (9990, "a5"%string); (10049, "a60"%string); (10050, "a61"%string); (10051, "a62"%string); (10052, "a63"%string);
  (10053, "a64"%string); (10054, "a65"%string); (10055, "a66"%string); (10056, "a67"%string); (10057, "a68"%string); (10058, "a69"%string);
  (10013, "a6"%string); (10059, "a70"%string); (9679, "a71"%string); (10061, "a72"%string); (9632, "a73"%string); (10063, "a74"%string);
  (10065, "a75"%string); (9650, "a76"%string); (9660, "a77"%string); (9670, "a78"%string); (10070, "a79"%string); (10014, "a7"%string);
  (9687, "a81"%string); (10072, "a82"%string); (10073, "a83"%string); (10074, "a84"%string); (10095, "a85"%string); (10097, "a86"%string);
  (10098, "a87"%string); (10099, "a88"%string); (10088, "a89"%string); (10015, "a8"%string); (10089, "a90"%string); (10092, "a91"%string);
  (10093, "a92"%string); (10090, "a93"%string); (10091, "a94"%string); (10100, "a95"%string); (10101, "a96"%string); (10075, "a97"%string);
  (10076, "a98"%string); (10077, "a99"%string); (10016, "a9"%string)
].
(** 1330-2384 UnicodeToNameTab without the entry that ends it *)
Definition points_table : list (Z * list Z) := Eval vm_compute in map (fun p => (fst p, bs (snd p))) [
  (0, ".notdef"%string); (32, "space"%string); (33, "exclam"%string); (34, "quotedbl"%string); (35, "numbersign"%string); (36, "dollar"%string);
  (37, "percent"%string); (38, "ampersand"%string); (39, "quotesingle"%string); (40, "parenleft"%string); (41, "parenright"%string);
  (42, "asterisk"%string); (43, "plus"%string); (44, "comma"%string); (45, "hyphen"%string); (46, "period"%string); (47, "slash"%string);
  (48, "zero"%string); (49, "one"%string); (50, "two"%string); (51, "three"%string); (52, "four"%string); (53, "five"%string); (54, "six"%string);
  (55, "seven"%string); (56, "eight"%string); (57, "nine"%string); (58, "colon"%string); (59, "semicolon"%string); (60, "less"%string);
  (61, "equal"%string); (62, "greater"%string); (63, "question"%string); (64, "at"%string); (65, "A"%string); (66, "B"%string); (67, "C"%string);
  (68, "D"%string); (69, "E"%string); (70, "F"%string); (71, "G"%string); (72, "H"%string); (73, "I"%string); (74, "J"%string); (75, "K"%string);
  (76, "L"%string); (77, "M"%string); (78, "N"%string); (79, "O"%string); (80, "P"%string); (81, "Q"%string); (82, "R"%string); (83, "S"%string);
  (84, "T"%string); (85, "U"%string); (86, "V"%string); (87, "W"%string); (88, "X"%string); (89, "Y"%string); (90, "Z"%string);
  (91, "bracketleft"%string); (92, "backslash"%string); (93, "bracketright"%string); (94, "asciicircum"%string); (95, "underscore"%string);
  (96, "grave"%string); (97, "a"%string); (98, "b"%string); (99, "c"%string); (100, "d"%string); (101, "e"%string); (102, "f"%string);
  (103, "g"%string); (104, "h"%string); (105, "i"%string); (106, "j"%string); (107, "k"%string); (108, "l"%string); (109, "m"%string);
  (110, "n"%string); (111, "o"%string); (112, "p"%string); (113, "q"%string); (114, "r"%string); (115, "s"%string); (116, "t"%string);
  (117, "u"%string); (118, "v"%string); (119, "w"%string); (120, "x"%string); (121, "y"%string); (122, "z"%string); (123, "braceleft"%string);
  (124, "bar"%string); (125, "braceright"%string); (126, "asciitilde"%string); (160, "space"%string); (161, "exclamdown"%string);
  (162, "cent"%string); (163, "sterling"%string); (164, "currency"%string); (165, "yen"%string); (166, "brokenbar"%string); (167, "section"%string);
  (168, "dieresis"%string); (169, "copyright"%string); (170, "ordfeminine"%string); (171, "guillemotleft"%string); (172, "logicalnot"%string);
  (173, "hyphen"%string); (174, "registered"%string); (175, "macron"%string); (176, "degree"%string); (177, "plusminus"%string);
  (178, "twosuperior"%string); (179, "threesuperior"%string); (180, "acute"%string); (181, "mu"%string); (182, "paragraph"%string);
  (183, "periodcentered"%string); (184, "cedilla"%string); (185, "onesuperior"%string); (186, "ordmasculine"%string); (187, "guillemotright"%string);
  (188, "onequarter"%string); (189, "onehalf"%string); (190, "threequarters"%string); (191, "questiondown"%string); (192, "Agrave"%string);
  (193, "Aacute"%string); (194, "Acircumflex"%string); (195, "Atilde"%string); (196, "Adieresis"%string); (197, "Aring"%string); (198, "AE"%string);
  (199, "Ccedilla"%string); (200, "Egrave"%string); (201, "Eacute"%string); (202, "Ecircumflex"%string); (203, "Edieresis"%string);
  (204, "Igrave"%string); (205, "Iacute"%string); (206, "Icircumflex"%string); (207, "Idieresis"%string); (208, "Eth"%string);
  (209, "Ntilde"%string); (210, "Ograve"%string); (211, "Oacute"%string); (212, "Ocircumflex"%string); (213, "Otilde"%string);
  (214, "Odieresis"%string); (215, "multiply"%string); (216, "Oslash"%string); (217, "Ugrave"%string); (218, "Uacute"%string);
  (219, "Ucircumflex"%string); (220, "Udieresis"%string); (221, "Yacute"%string); (222, "Thorn"%string); (223, "germandbls"%string);
  (224, "agrave"%string); (225, "aacute"%string); (226, "acircumflex"%string); (227, "atilde"%string); (228, "adieresis"%string);
  (229, "aring"%string); (230, "ae"%string); (231, "ccedilla"%string); (232, "egrave"%string); (233, "eacute"%string); (234, "ecircumflex"%string);
  (235, "edieresis"%string); (236, "igrave"%string); (237, "iacute"%string); (238, "icircumflex"%string); (239, "idieresis"%string);
  (240, "eth"%string); (241, "ntilde"%string); (242, "ograve"%string); (243, "oacute"%string); (244, "ocircumflex"%string); (245, "otilde"%string);
  (246, "odieresis"%string); (247, "divide"%string); (248, "oslash"%string); (249, "ugrave"%string); (250, "uacute"%string);
  (251, "ucircumflex"%string); (252, "udieresis"%string); (253, "yacute"%string); (254, "thorn"%string); (255, "ydieresis"%string);
  (256, "Amacron"%string); (257, "amacron"%string); (258, "Abreve"%string); (259, "abreve"%string); (260, "Aogonek"%string); (261, "aogonek"%string);
  (262, "Cacute"%string); (263, "cacute"%string); (264, "Ccircumflex"%string); (265, "ccircumflex"%string); (266, "Cdotaccent"%string);
  (267, "cdotaccent"%string); (268, "Ccaron"%string); (269, "ccaron"%string); (270, "Dcaron"%string); (271, "dcaron"%string); (272, "Dcroat"%string);
  (273, "dcroat"%string); (274, "Emacron"%string); (275, "emacron"%string); (276, "Ebreve"%string); (277, "ebreve"%string);
  (278, "Edotaccent"%string); (279, "edotaccent"%string); (280, "Eogonek"%string); (281, "eogonek"%string); (282, "Ecaron"%string);
  (283, "ecaron"%string); (284, "Gcircumflex"%string); (285, "gcircumflex"%string); (286, "Gbreve"%string); (287, "gbreve"%string);
  (288, "Gdotaccent"%string); (289, "gdotaccent"%string); (290, "Gcommaaccent"%string); (291, "gcommaaccent"%string); (292, "Hcircumflex"%string);
  (293, "hcircumflex"%string); (294, "Hbar"%string); (295, "hbar"%string); (296, "Itilde"%string); (297, "itilde"%string); (298, "Imacron"%string);
  (299, "imacron"%string); (300, "Ibreve"%string); (301, "ibreve"%string); (302, "Iogonek"%string); (303, "iogonek"%string);
  (304, "Idotaccent"%string); (305, "dotlessi"%string); (306, "IJ"%string); (307, "ij"%string); (308, "Jcircumflex"%string);
  (309, "jcircumflex"%string); (310, "Kcommaaccent"%string); (311, "kcommaaccent"%string); (312, "kgreenlandic"%string); (313, "Lacute"%string);
  (314, "lacute"%string); (315, "Lcommaaccent"%string); (316, "lcommaaccent"%string); (317, "Lcaron"%string); (318, "lcaron"%string);
  (319, "Ldot"%string); (320, "ldot"%string); (321, "Lslash"%string); (322, "lslash"%string); (323, "Nacute"%string); (324, "nacute"%string);
  (325, "Ncommaaccent"%string); (326, "ncommaaccent"%string); (327, "Ncaron"%string); (328, "ncaron"%string); (329, "napostrophe"%string);
  (330, "Eng"%string); (331, "eng"%string); (332, "Omacron"%string); (333, "omacron"%string); (334, "Obreve"%string); (335, "obreve"%string);
  (336, "Ohungarumlaut"%string); (337, "ohungarumlaut"%string); (338, "OE"%string); (339, "oe"%string); (340, "Racute"%string);
  (341, "racute"%string); (342, "Rcommaaccent"%string); (343, "rcommaaccent"%string); (344, "Rcaron"%string); (345, "rcaron"%string);
  (346, "Sacute"%string); (347, "sacute"%string); (348, "Scircumflex"%string); (349, "scircumflex"%string); (350, "Scedilla"%string);
  (351, "scedilla"%string); (352, "Scaron"%string); (353, "scaron"%string); (354, "Tcommaaccent"%string); (355, "tcommaaccent"%string);
  (356, "Tcaron"%string); (357, "tcaron"%string); (358, "Tbar"%string); (359, "tbar"%string); (360, "Utilde"%string); (361, "utilde"%string);
  (362, "Umacron"%string); (363, "umacron"%string); (364, "Ubreve"%string); (365, "ubreve"%string); (366, "Uring"%string); (367, "uring"%string);
  (368, "Uhungarumlaut"%string); (369, "uhungarumlaut"%string); (370, "Uogonek"%string); (371, "uogonek"%string); (372, "Wcircumflex"%string);
  (373, "wcircumflex"%string); (374, "Ycircumflex"%string); (375, "ycircumflex"%string); (376, "Ydieresis"%string); (377, "Zacute"%string);
  (378, "zacute"%string); (379, "Zdotaccent"%string); (380, "zdotaccent"%string); (381, "Zcaron"%string); (382, "zcaron"%string);
  (383, "longs"%string); (402, "florin"%string); (416, "Ohorn"%string); (417, "ohorn"%string); (431, "Uhorn"%string); (432, "uhorn"%string);
  (486, "Gcaron"%string); (487, "gcaron"%string); (506, "Aringacute"%string); (507, "aringacute"%string); (508, "AEacute"%string);
  (509, "aeacute"%string); (510, "Oslashacute"%string); (511, "oslashacute"%string); (536, "Scommaaccent"%string); (537, "scommaaccent"%string);
  (538, "Tcommaaccent"%string); (539, "tcommaaccent"%string); (700, "afii57929"%string); (701, "afii64937"%string); (710, "circumflex"%string);
  (711, "caron"%string); (713, "macron"%string); (728, "breve"%string); (729, "dotaccent"%string); (730, "ring"%string); (731, "ogonek"%string);
  (732, "tilde"%string); (733, "hungarumlaut"%string); (768, "gravecomb"%string); (769, "acutecomb"%string); (771, "tildecomb"%string);
  (777, "hookabovecomb"%string); (803, "dotbelowcomb"%string); (900, "tonos"%string); (901, "dieresistonos"%string); (902, "Alphatonos"%string);
  (903, "anoteleia"%string); (904, "Epsilontonos"%string); (905, "Etatonos"%string); (906, "Iotatonos"%string); (908, "Omicrontonos"%string);
  (910, "Upsilontonos"%string); (911, "Omegatonos"%string); (912, "iotadieresistonos"%string); (913, "Alpha"%string); (914, "Beta"%string);
  (915, "Gamma"%string); (916, "Delta"%string); (917, "Epsilon"%string); (918, "Zeta"%string); (919, "Eta"%string); (920, "Theta"%string);
  (921, "Iota"%string); (922, "Kappa"%string); (923, "Lambda"%string); (924, "Mu"%string); (925, "Nu"%string); (926, "Xi"%string);
  (927, "Omicron"%string); (928, "Pi"%string); (929, "Rho"%string); (931, "Sigma"%string); (932, "Tau"%string); (933, "Upsilon"%string);
  (934, "Phi"%string); (935, "Chi"%string); (936, "Psi"%string); (937, "Omega"%string); (938, "Iotadieresis"%string);
  (939, "Upsilondieresis"%string); (940, "alphatonos"%string); (941, "epsilontonos"%string); (942, "etatonos"%string); (943, "iotatonos"%string);
  (944, "upsilondieresistonos"%string); (945, "alpha"%string); (946, "beta"%string); (947, "gamma"%string); (948, "delta"%string);
  (949, "epsilon"%string); (950, "zeta"%string); (951, "eta"%string); (952, "theta"%string); (953, "iota"%string); (954, "kappa"%string);
  (955, "lambda"%string); (956, "mu"%string); (957, "nu"%string); (958, "xi"%string); (959, "omicron"%string); (960, "pi"%string);
  (961, "rho"%string); (962, "sigma1"%string); (963, "sigma"%string); (964, "tau"%string); (965, "upsilon"%string); (966, "phi"%string);
  (967, "chi"%string); (968, "psi"%string); (969, "omega"%string); (970, "iotadieresis"%string); (971, "upsilondieresis"%string);
  (972, "omicrontonos"%string); (973, "upsilontonos"%string); (974, "omegatonos"%string); (977, "theta1"%string); (978, "Upsilon1"%string);
  (981, "phi1"%string); (982, "omega1"%string); (1025, "afii10023"%string); (1026, "afii10051"%string); (1027, "afii10052"%string);
  (1028, "afii10053"%string); (1029, "afii10054"%string); (1030, "afii10055"%string); (1031, "afii10056"%string); (1032, "afii10057"%string);
  (1033, "afii10058"%string); (1034, "afii10059"%string); (1035, "afii10060"%string); (1036, "afii10061"%string); (1038, "afii10062"%string);
  (1039, "afii10145"%string); (1040, "afii10017"%string); (1041, "afii10018"%string); (1042, "afii10019"%string); (1043, "afii10020"%string);
  (1044, "afii10021"%string); (1045, "afii10022"%string); (1046, "afii10024"%string); (1047, "afii10025"%string); (1048, "afii10026"%string);
  (1049, "afii10027"%string); (1050, "afii10028"%string); (1051, "afii10029"%string); (1052, "afii10030"%string); (1053, "afii10031"%string);
  (1054, "afii10032"%string); (1055, "afii10033"%string); (1056, "afii10034"%string); (1057, "afii10035"%string); (1058, "afii10036"%string);
  (1059, "afii10037"%string); (1060, "afii10038"%string); (1061, "afii10039"%string); (1062, "afii10040"%string); (1063, "afii10041"%string);
  (1064, "afii10042"%string); (1065, "afii10043"%string); (1066, "afii10044"%string); (1067, "afii10045"%string); (1068, "afii10046"%string);
  (1069, "afii10047"%string); (1070, "afii10048"%string); (1071, "afii10049"%string); (1072, "afii10065"%string); (1073, "afii10066"%string);
  (1074, "afii10067"%string); (1075, "afii10068"%string); (1076, "afii10069"%string); (1077, "afii10070"%string); (1078, "afii10072"%string);
  (1079, "afii10073"%string); (1080, "afii10074"%string); (1081, "afii10075"%string); (1082, "afii10076"%string); (1083, "afii10077"%string);
  (1084, "afii10078"%string); (1085, "afii10079"%string); (1086, "afii10080"%string); (1087, "afii10081"%string); (1088, "afii10082"%string);
  (1089, "afii10083"%string); (1090, "afii10084"%string); (1091, "afii10085"%string); (1092, "afii10086"%string); (1093, "afii10087"%string);
  (1094, "afii10088"%string); (1095, "afii10089"%string); (1096, "afii10090"%string); (1097, "afii10091"%string); (1098, "afii10092"%string);
  (1099, "afii10093"%string); (1100, "afii10094"%string); (1101, "afii10095"%string); (1102, "afii10096"%string); (1103, "afii10097"%string);
  (1105, "afii10071"%string); (1106, "afii10099"%string); (1107, "afii10100"%string); (1108, "afii10101"%string); (1109, "afii10102"%string);
  (1110, "afii10103"%string); (1111, "afii10104"%string); (1112, "afii10105"%string); (1113, "afii10106"%string); (1114, "afii10107"%string);
  (1115, "afii10108"%string); (1116, "afii10109"%string); (1118, "afii10110"%string); (1119, "afii10193"%string); (1122, "afii10146"%string);
  (1123, "afii10194"%string); (1138, "afii10147"%string); (1139, "afii10195"%string); (1140, "afii10148"%string); (1141, "afii10196"%string);
  (1168, "afii10050"%string); (1169, "afii10098"%string); (1241, "afii10846"%string); (1456, "afii57799"%string); (1457, "afii57801"%string);
  (1458, "afii57800"%string); (1459, "afii57802"%string); (1460, "afii57793"%string); (1461, "afii57794"%string); (1462, "afii57795"%string);
  (1463, "afii57798"%string); (1464, "afii57797"%string); (1465, "afii57806"%string); (1467, "afii57796"%string); (1468, "afii57807"%string);
  (1469, "afii57839"%string); (1470, "afii57645"%string); (1471, "afii57841"%string); (1472, "afii57842"%string); (1473, "afii57804"%string);
  (1474, "afii57803"%string); (1475, "afii57658"%string); (1488, "afii57664"%string); (1489, "afii57665"%string); (1490, "afii57666"%string);
  (1491, "afii57667"%string); (1492, "afii57668"%string); (1493, "afii57669"%string); (1494, "afii57670"%string); (1495, "afii57671"%string);
  (1496, "afii57672"%string); (1497, "afii57673"%string); (1498, "afii57674"%string); (1499, "afii57675"%string); (1500, "afii57676"%string);
  (1501, "afii57677"%string); (1502, "afii57678"%string); (1503, "afii57679"%string); (1504, "afii57680"%string); (1505, "afii57681"%string);
  (1506, "afii57682"%string); (1507, "afii57683"%string); (1508, "afii57684"%string); (1509, "afii57685"%string); (1510, "afii57686"%string);
  (1511, "afii57687"%string); (1512, "afii57688"%string); (1513, "afii57689"%string); (1514, "afii57690"%string); (1520, "afii57716"%string);
  (1521, "afii57717"%string); (1522, "afii57718"%string); (1548, "afii57388"%string); (1563, "afii57403"%string); (1567, "afii57407"%string);
  (1569, "afii57409"%string); (1570, "afii57410"%string); (1571, "afii57411"%string); (1572, "afii57412"%string); (1573, "afii57413"%string);
  (1574, "afii57414"%string); (1575, "afii57415"%string); (1576, "afii57416"%string); (1577, "afii57417"%string); (1578, "afii57418"%string);
  (1579, "afii57419"%string); (1580, "afii57420"%string); (1581, "afii57421"%string); (1582, "afii57422"%string); (1583, "afii57423"%string);
  (1584, "afii57424"%string); (1585, "afii57425"%string); (1586, "afii57426"%string); (1587, "afii57427"%string); (1588, "afii57428"%string);
  (1589, "afii57429"%string); (1590, "afii57430"%string); (1591, "afii57431"%string); (1592, "afii57432"%string); (1593, "afii57433"%string);
  (1594, "afii57434"%string); (1600, "afii57440"%string); (1601, "afii57441"%string); (1602, "afii57442"%string); (1603, "afii57443"%string);
  (1604, "afii57444"%string); (1605, "afii57445"%string); (1606, "afii57446"%string); (1607, "afii57470"%string); (1608, "afii57448"%string);
  (1609, "afii57449"%string); (1610, "afii57450"%string); (1611, "afii57451"%string); (1612, "afii57452"%string); (1613, "afii57453"%string);
  (1614, "afii57454"%string); (1615, "afii57455"%string); (1616, "afii57456"%string); (1617, "afii57457"%string); (1618, "afii57458"%string);
  (1632, "afii57392"%string); (1633, "afii57393"%string); (1634, "afii57394"%string); (1635, "afii57395"%string); (1636, "afii57396"%string);
  (1637, "afii57397"%string); (1638, "afii57398"%string); (1639, "afii57399"%string); (1640, "afii57400"%string); (1641, "afii57401"%string);
  (1642, "afii57381"%string); (1645, "afii63167"%string); (1657, "afii57511"%string); (1662, "afii57506"%string); (1670, "afii57507"%string);
  (1672, "afii57512"%string); (1681, "afii57513"%string); (1688, "afii57508"%string); (1700, "afii57505"%string); (1711, "afii57509"%string);
  (1722, "afii57514"%string); (1746, "afii57519"%string); (1749, "afii57534"%string); (7808, "Wgrave"%string); (7809, "wgrave"%string);
  (7810, "Wacute"%string); (7811, "wacute"%string); (7812, "Wdieresis"%string); (7813, "wdieresis"%string); (7922, "Ygrave"%string);
  (7923, "ygrave"%string); (8204, "afii61664"%string); (8205, "afii301"%string); (8206, "afii299"%string); (8207, "afii300"%string);
  (8210, "figuredash"%string); (8211, "endash"%string); (8212, "emdash"%string); (8213, "afii00208"%string); (8215, "underscoredbl"%string);
  (8216, "quoteleft"%string); (8217, "quoteright"%string); (8218, "quotesinglbase"%string); (8219, "quotereversed"%string);
  (8220, "quotedblleft"%string); (8221, "quotedblright"%string); (8222, "quotedblbase"%string); (8224, "dagger"%string); (8225, "daggerdbl"%string);
  (8226, "bullet"%string); (8228, "onedotenleader"%string); (8229, "twodotenleader"%string); (8230, "ellipsis"%string); (8236, "afii61573"%string);
  (8237, "afii61574"%string); (8238, "afii61575"%string); (8240, "perthousand"%string); (8242, "minute"%string); (8243, "second"%string);
  (8249, "guilsinglleft"%string); (8250, "guilsinglright"%string); (8252, "exclamdbl"%string); (8260, "fraction"%string);
  (8304, "zerosuperior"%string); (8308, "foursuperior"%string); (8309, "fivesuperior"%string); (8310, "sixsuperior"%string);
  (8311, "sevensuperior"%string); (8312, "eightsuperior"%string); (8313, "ninesuperior"%string); (8317, "parenleftsuperior"%string);
  (8318, "parenrightsuperior"%string); (8319, "nsuperior"%string); (8320, "zeroinferior"%string); (8321, "oneinferior"%string);
  (8322, "twoinferior"%string); (8323, "threeinferior"%string); (8324, "fourinferior"%string); (8325, "fiveinferior"%string);
  (8326, "sixinferior"%string); (8327, "seveninferior"%string); (8328, "eightinferior"%string); (8329, "nineinferior"%string);
  (8333, "parenleftinferior"%string); (8334, "parenrightinferior"%string); (8353, "colonmonetary"%string); (8355, "franc"%string);
  (8356, "lira"%string); (8359, "peseta"%string); (8362, "afii57636"%string); (8363, "dong"%string); (8364, "Euro"%string);
  (8453, "afii61248"%string); (8465, "Ifraktur"%string); (8467, "afii61289"%string); (8470, "afii61352"%string); (8472, "weierstrass"%string);
  (8476, "Rfraktur"%string); (8478, "prescription"%string); (8482, "trademark"%string); (8486, "Omega"%string); (8494, "estimated"%string);
  (8501, "aleph"%string); (8531, "onethird"%string); (8532, "twothirds"%string); (8539, "oneeighth"%string); (8540, "threeeighths"%string);
  (8541, "fiveeighths"%string); (8542, "seveneighths"%string); (8592, "arrowleft"%string); (8593, "arrowup"%string); (8594, "arrowright"%string);
  (8595, "arrowdown"%string); (8596, "arrowboth"%string); (8597, "arrowupdn"%string); (8616, "arrowupdnbse"%string); (8629, "carriagereturn"%string);
  (8656, "arrowdblleft"%string); (8657, "arrowdblup"%string); (8658, "arrowdblright"%string); (8659, "arrowdbldown"%string);
  (8660, "arrowdblboth"%string); (8704, "universal"%string); (8706, "partialdiff"%string); (8707, "existential"%string); (8709, "emptyset"%string);
  (8710, "Delta"%string); (8711, "gradient"%string); (8712, "element"%string); (8713, "notelement"%string); (8715, "suchthat"%string);
  (8719, "product"%string); (8721, "summation"%string); (8722, "minus"%string); (8725, "fraction"%string); (8727, "asteriskmath"%string);
  (8729, "periodcentered"%string); (8730, "radical"%string); (8733, "proportional"%string); (8734, "infinity"%string); (8735, "orthogonal"%string);
  (8736, "angle"%string); (8743, "logicaland"%string); (8744, "logicalor"%string); (8745, "intersection"%string); (8746, "union"%string);
  (8747, "integral"%string); (8756, "therefore"%string); (8764, "similar"%string); (8773, "congruent"%string); (8776, "approxequal"%string);
  (8800, "notequal"%string); (8801, "equivalence"%string); (8804, "lessequal"%string); (8805, "greaterequal"%string); (8834, "propersubset"%string);
  (8835, "propersuperset"%string); (8836, "notsubset"%string); (8838, "reflexsubset"%string); (8839, "reflexsuperset"%string);
  (8853, "circleplus"%string); (8855, "circlemultiply"%string); (8869, "perpendicular"%string); (8901, "dotmath"%string); (8962, "house"%string);
  (8976, "revlogicalnot"%string); (8992, "integraltp"%string); (8993, "integralbt"%string); (9001, "angleleft"%string); (9002, "angleright"%string);
  (9472, "SF100000"%string); (9474, "SF110000"%string); (9484, "SF010000"%string); (9488, "SF030000"%string); (9492, "SF020000"%string);
  (9496, "SF040000"%string); (9500, "SF080000"%string); (9508, "SF090000"%string); (9516, "SF060000"%string); (9524, "SF070000"%string);
  (9532, "SF050000"%string); (9552, "SF430000"%string); (9553, "SF240000"%string); (9554, "SF510000"%string); (9555, "SF520000"%string);
  (9556, "SF390000"%string); (9557, "SF220000"%string); (9558, "SF210000"%string); (9559, "SF250000"%string); (9560, "SF500000"%string);
  (9561, "SF490000"%string); (9562, "SF380000"%string); (9563, "SF280000"%string); (9564, "SF270000"%string); (9565, "SF260000"%string);
  (9566, "SF360000"%string); (9567, "SF370000"%string); (9568, "SF420000"%string); (9569, "SF190000"%string); (9570, "SF200000"%string);
  (9571, "SF230000"%string); (9572, "SF470000"%string); (9573, "SF480000"%string); (9574, "SF410000"%string); (9575, "SF450000"%string);
  (9576, "SF460000"%string); (9577, "SF400000"%string); (9578, "SF540000"%string); (9579, "SF530000"%string); (9580, "SF440000"%string);
  (9600, "upblock"%string); (9604, "dnblock"%string); (9608, "block"%string); (9612, "lfblock"%string); (9616, "rtblock"%string);
  (9617, "ltshade"%string); (9618, "shade"%string); (9619, "dkshade"%string); (9632, "filledbox"%string); (9633, "H22073"%string);
  (9642, "H18543"%string); (9643, "H18551"%string); (9644, "filledrect"%string); (9650, "triagup"%string); (9658, "triagrt"%string);
  (9660, "triagdn"%string); (9668, "triaglf"%string); (9674, "lozenge"%string); (9675, "circle"%string); (9679, "H18533"%string);
  (9688, "invbullet"%string); (9689, "invcircle"%string); (9702, "openbullet"%string); (9786, "smileface"%string); (9787, "invsmileface"%string);
  (9788, "sun"%string); (9792, "female"%string); (9794, "male"%string); (9824, "spade"%string); (9827, "club"%string); (9829, "heart"%string);
  (9830, "diamond"%string); (9834, "musicalnote"%string); (9835, "musicalnotedbl"%string); (63166, "dotlessj"%string); (63167, "LL"%string);
  (63168, "ll"%string); (63169, "Scedilla"%string); (63170, "scedilla"%string); (63171, "commaaccent"%string); (63172, "afii10063"%string);
  (63173, "afii10064"%string); (63174, "afii10192"%string); (63175, "afii10831"%string); (63176, "afii10832"%string); (63177, "Acute"%string);
  (63178, "Caron"%string); (63179, "Dieresis"%string); (63180, "DieresisAcute"%string); (63181, "DieresisGrave"%string); (63182, "Grave"%string);
  (63183, "Hungarumlaut"%string); (63184, "Macron"%string); (63185, "cyrBreve"%string); (63186, "cyrFlex"%string); (63187, "dblGrave"%string);
  (63188, "cyrbreve"%string); (63189, "cyrflex"%string); (63190, "dblgrave"%string); (63191, "dieresisacute"%string);
  (63192, "dieresisgrave"%string); (63193, "copyrightserif"%string); (63194, "registerserif"%string); (63195, "trademarkserif"%string);
  (63196, "onefitted"%string); (63197, "rupiah"%string); (63198, "threequartersemdash"%string); (63199, "centinferior"%string);
  (63200, "centsuperior"%string); (63201, "commainferior"%string); (63202, "commasuperior"%string); (63203, "dollarinferior"%string);
  (63204, "dollarsuperior"%string); (63205, "hypheninferior"%string); (63206, "hyphensuperior"%string); (63207, "periodinferior"%string);
  (63208, "periodsuperior"%string); (63209, "asuperior"%string); (63210, "bsuperior"%string); (63211, "dsuperior"%string);
  (63212, "esuperior"%string); (63213, "isuperior"%string); (63214, "lsuperior"%string); (63215, "msuperior"%string); (63216, "osuperior"%string);
  (63217, "rsuperior"%string); (63218, "ssuperior"%string); (63219, "tsuperior"%string); (63220, "Brevesmall"%string); (63221, "Caronsmall"%string);
  (63222, "Circumflexsmall"%string); (63223, "Dotaccentsmall"%string); (63224, "Hungarumlautsmall"%string); (63225, "Lslashsmall"%string);
  (63226, "OEsmall"%string); (63227, "Ogoneksmall"%string); (63228, "Ringsmall"%string); (63229, "Scaronsmall"%string); (63230, "Tildesmall"%string);
  (63231, "Zcaronsmall"%string); (63265, "exclamsmall"%string); (63268, "dollaroldstyle"%string); (63270, "ampersandsmall"%string);
  (63280, "zerooldstyle"%string); (63281, "oneoldstyle"%string); (63282, "twooldstyle"%string); (63283, "threeoldstyle"%string);
  (63284, "fouroldstyle"%string); (63285, "fiveoldstyle"%string); (63286, "sixoldstyle"%string); (63287, "sevenoldstyle"%string);
  (63288, "eightoldstyle"%string); (63289, "nineoldstyle"%string); (63295, "questionsmall"%string); (63328, "Gravesmall"%string);
  (63329, "Asmall"%string); (63330, "Bsmall"%string); (63331, "Csmall"%string); (63332, "Dsmall"%string); (63333, "Esmall"%string);
  (63334, "Fsmall"%string); (63335, "Gsmall"%string); (63336, "Hsmall"%string); (63337, "Ismall"%string); (63338, "Jsmall"%string);
  (63339, "Ksmall"%string); (63340, "Lsmall"%string); (63341, "Msmall"%string); (63342, "Nsmall"%string); (63343, "Osmall"%string);
  (63344, "Psmall"%string); (63345, "Qsmall"%string); (63346, "Rsmall"%string); (63347, "Ssmall"%string); (63348, "Tsmall"%string);
  (63349, "Usmall"%string); (63350, "Vsmall"%string); (63351, "Wsmall"%string); (63352, "Xsmall"%string); (63353, "Ysmall"%string);
  (63354, "Zsmall"%string); (63393, "exclamdownsmall"%string); (63394, "centoldstyle"%string); (63400, "Dieresissmall"%string);
  (63407, "Macronsmall"%string); (63412, "Acutesmall"%string); (63416, "Cedillasmall"%string); (63423, "questiondownsmall"%string);
  (63456, "Agravesmall"%string); (63457, "Aacutesmall"%string); (63458, "Acircumflexsmall"%string); (63459, "Atildesmall"%string);
  (63460, "Adieresissmall"%string); (63461, "Aringsmall"%string); (63462, "AEsmall"%string); (63463, "Ccedillasmall"%string);
  (63464, "Egravesmall"%string); (63465, "Eacutesmall"%string); (63466, "Ecircumflexsmall"%string); (63467, "Edieresissmall"%string);
  (63468, "Igravesmall"%string); (63469, "Iacutesmall"%string); (63470, "Icircumflexsmall"%string); (63471, "Idieresissmall"%string);
  (63472, "Ethsmall"%string); (63473, "Ntildesmall"%string); (63474, "Ogravesmall"%string); (63475, "Oacutesmall"%string);
  (63476, "Ocircumflexsmall"%string); (63477, "Otildesmall"%string); (63478, "Odieresissmall"%string); (63480, "Oslashsmall"%string);
  (63481, "Ugravesmall"%string); (63482, "Uacutesmall"%string); (63483, "Ucircumflexsmall"%string); (63484, "Udieresissmall"%string);
  (63485, "Yacutesmall"%string); (63486, "Thornsmall"%string); (63487, "Ydieresissmall"%string); (63717, "radicalex"%string);
  (63718, "arrowvertex"%string); (63719, "arrowhorizex"%string); (63720, "registersans"%string); (63721, "copyrightsans"%string);
  (63722, "trademarksans"%string); (63723, "parenlefttp"%string); (63724, "parenleftex"%string); (63725, "parenleftbt"%string);
  (63726, "bracketlefttp"%string); (63727, "bracketleftex"%string); (63728, "bracketleftbt"%string); (63729, "bracelefttp"%string);
  (63730, "braceleftmid"%string); (63731, "braceleftbt"%string); (63732, "braceex"%string); (63733, "integralex"%string);
  (63734, "parenrighttp"%string); (63735, "parenrightex"%string); (63736, "parenrightbt"%string); (63737, "bracketrighttp"%string);
  (63738, "bracketrightex"%string); (63739, "bracketrightbt"%string); (63740, "bracerighttp"%string); (63741, "bracerightmid"%string);
  (63742, "bracerightbt"%string); (64256, "ff"%string); (64257, "fi"%string); (64258, "fl"%string); (64259, "ffi"%string); (64260, "ffl"%string);
  (64287, "afii57705"%string); (64298, "afii57694"%string); (64299, "afii57695"%string); (64309, "afii57723"%string); (64331, "afii57700"%string)
].
(** PdfPredefinedEncoding.cpp:45-302 PdfWinAnsiEncoding *)
Definition win_table : list Z := [
  0; 1; 2; 3; 4; 5; 6; 7; 8; 9; 10; 11; 12; 13; 14; 15; 16; 17; 18; 19; 20; 21; 22; 23; 24; 25; 26; 27; 28; 29; 30; 31; 32; 33; 34; 35; 36; 37; 38;
  39; 40; 41; 42; 43; 44; 45; 46; 47; 48; 49; 50; 51; 52; 53; 54; 55; 56; 57; 58; 59; 60; 61; 62; 63; 64; 65; 66; 67; 68; 69; 70; 71; 72; 73; 74; 75;
  76; 77; 78; 79; 80; 81; 82; 83; 84; 85; 86; 87; 88; 89; 90; 91; 92; 93; 94; 95; 96; 97; 98; 99; 100; 101; 102; 103; 104; 105; 106; 107; 108; 109;
  110; 111; 112; 113; 114; 115; 116; 117; 118; 119; 120; 121; 122; 123; 124; 125; 126; 127; 8364; 0; 8218; 402; 8222; 8230; 8224; 8225; 710; 8240;
  352; 8249; 338; 0; 381; 0; 0; 8216; 8217; 8220; 8221; 8226; 8211; 8212; 732; 8482; 353; 8250; 339; 0; 382; 376; 160; 161; 162; 163; 164; 165; 166;
  167; 168; 169; 170; 171; 172; 173; 174; 175; 176; 177; 178; 179; 180; 181; 182; 183; 184; 185; 186; 187; 188; 189; 190; 191; 192; 193; 194; 195;
  196; 197; 198; 199; 200; 201; 202; 203; 204; 205; 206; 207; 208; 209; 210; 211; 212; 213; 214; 215; 216; 217; 218; 219; 220; 221; 222; 223; 224;
  225; 226; 227; 228; 229; 230; 231; 232; 233; 234; 235; 236; 237; 238; 239; 240; 241; 242; 243; 244; 245; 246; 247; 248; 249; 250; 251; 252; 253;
  254; 255
].
(** PdfPredefinedEncoding.cpp:314-571 PdfMacRomanEncoding *)
Definition mac_table : list Z := [
  0; 1; 2; 3; 4; 5; 6; 7; 8; 9; 10; 11; 12; 13; 14; 15; 16; 17; 18; 19; 20; 21; 22; 23; 24; 25; 26; 27; 28; 29; 30; 31; 32; 33; 34; 35; 36; 37; 38;
  39; 40; 41; 42; 43; 44; 45; 46; 47; 48; 49; 50; 51; 52; 53; 54; 55; 56; 57; 58; 59; 60; 61; 62; 63; 64; 65; 66; 67; 68; 69; 70; 71; 72; 73; 74; 75;
  76; 77; 78; 79; 80; 81; 82; 83; 84; 85; 86; 87; 88; 89; 90; 91; 92; 93; 94; 95; 96; 97; 98; 99; 100; 101; 102; 103; 104; 105; 106; 107; 108; 109;
  110; 111; 112; 113; 114; 115; 116; 117; 118; 119; 120; 121; 122; 123; 124; 125; 126; 127; 196; 197; 199; 201; 209; 214; 220; 225; 224; 226; 228;
  227; 229; 231; 233; 232; 234; 235; 237; 236; 238; 239; 241; 243; 242; 244; 246; 245; 250; 249; 251; 252; 8224; 176; 162; 163; 167; 8226; 182; 223;
  174; 169; 8482; 180; 168; 8800; 198; 216; 8734; 177; 8804; 8805; 165; 181; 8706; 8721; 8719; 960; 8747; 170; 186; 937; 230; 248; 191; 161; 172;
  8730; 402; 8776; 8710; 171; 187; 8230; 160; 192; 195; 213; 338; 339; 8211; 8212; 8220; 8221; 8216; 8217; 247; 9674; 255; 376; 8260; 8364; 8249;
  8250; 64257; 64258; 8225; 183; 8218; 8222; 8240; 194; 202; 193; 203; 200; 205; 206; 207; 204; 211; 212; 63743; 210; 218; 219; 217; 305; 710; 732;
  175; 728; 729; 730; 184; 733; 731; 711
].
(** PdfPredefinedEncoding.cpp:592-633 PdfMacExpertEncoding *)
Definition expert_table : list Z := [
  0; 0; 0; 0; 0; 0; 0; 0; 0; 0; 0; 0; 0; 0; 0; 0; 0; 0; 0; 0; 0; 0; 0; 0; 0; 0; 0; 0; 0; 0; 0; 0; 32; 63265; 63224; 63394; 63268; 63204; 63270;
  63412; 8317; 8318; 8229; 8228; 44; 45; 46; 8260; 63280; 63281; 63282; 63283; 63284; 63285; 63286; 63287; 63288; 63289; 58; 59; 0; 63198; 0; 63295;
  0; 0; 0; 0; 63472; 0; 0; 188; 189; 190; 8539; 8540; 8541; 8542; 8531; 8532; 0; 0; 0; 0; 0; 0; 64256; 64257; 64258; 64259; 64260; 8333; 0; 8334;
  63222; 63205; 63328; 63329; 63330; 63331; 63332; 63333; 63334; 63335; 63336; 63337; 63338; 63339; 63340; 63341; 63342; 63343; 63344; 63345; 63346;
  63347; 63348; 63349; 63350; 63351; 63352; 63353; 63354; 8353; 63196; 63197; 63230; 0; 0; 63209; 63200; 0; 0; 0; 0; 63457; 63456; 63458; 63460;
  63459; 63461; 63463; 63465; 63464; 63466; 63467; 63469; 63468; 63470; 63471; 63473; 63475; 63474; 63476; 63478; 63477; 63482; 63481; 63483; 63484;
  0; 8312; 8324; 8323; 8326; 8328; 8327; 63229; 0; 63199; 8322; 0; 63400; 0; 63221; 63216; 8325; 0; 63201; 63207; 63485; 0; 63203; 0; 0; 63486; 0;
  8329; 8320; 63231; 63462; 63480; 63423; 8321; 63225; 0; 0; 0; 0; 0; 0; 63416; 0; 0; 0; 0; 0; 63226; 8210; 63206; 0; 0; 0; 0; 63393; 0; 63487; 0;
  185; 178; 179; 8308; 8309; 8310; 8311; 8313; 8304; 0; 63212; 63217; 63219; 0; 0; 63213; 63218; 63211; 0; 0; 0; 0; 0; 63214; 63227; 63220; 63407;
  63210; 8319; 63215; 63202; 63208; 63223; 63228; 0; 0; 0; 0
].
(** PdfPredefinedEncoding.cpp:651-873 PdfStandardEncoding *)
Definition standard_table : list Z := [
  0; 0; 0; 0; 0; 0; 0; 0; 0; 0; 0; 0; 0; 0; 0; 0; 0; 0; 0; 0; 0; 0; 0; 0; 0; 0; 0; 0; 0; 0; 0; 0; 32; 33; 34; 35; 36; 37; 38; 8217; 40; 41; 42; 43;
  44; 45; 46; 47; 48; 49; 50; 51; 52; 53; 54; 55; 56; 57; 58; 59; 60; 61; 62; 63; 64; 65; 66; 67; 68; 69; 70; 71; 72; 73; 74; 75; 76; 77; 78; 79; 80;
  81; 82; 83; 84; 85; 86; 87; 88; 89; 90; 91; 92; 93; 94; 95; 96; 97; 98; 99; 100; 101; 102; 103; 104; 105; 106; 107; 108; 109; 110; 111; 112; 113;
  114; 115; 116; 117; 118; 119; 120; 121; 122; 123; 124; 125; 126; 0; 0; 0; 0; 0; 0; 0; 0; 0; 0; 0; 0; 0; 0; 0; 0; 0; 0; 0; 0; 0; 0; 0; 0; 0; 0; 0;
  0; 0; 0; 0; 0; 0; 0; 161; 162; 163; 8260; 165; 402; 167; 164; 39; 8220; 171; 8249; 8250; 64257; 64258; 0; 8211; 8224; 8225; 183; 0; 182; 8226;
  8218; 8222; 8221; 187; 8230; 8240; 0; 191; 0; 96; 180; 710; 732; 175; 728; 729; 168; 0; 730; 184; 0; 733; 731; 711; 8212; 0; 0; 0; 0; 0; 0; 0; 0;
  0; 0; 0; 0; 0; 0; 0; 0; 198; 0; 170; 0; 0; 0; 0; 321; 216; 338; 186; 0; 0; 0; 0; 0; 230; 0; 0; 0; 305; 0; 0; 322; 248; 339; 223; 0; 0; 0; 0
].
(** PdfPredefinedEncoding.cpp:891-1102 PdfSymbolEncoding *)
Definition symbol_table : list Z := [
  0; 0; 0; 0; 0; 0; 0; 0; 0; 0; 0; 0; 0; 0; 0; 0; 0; 0; 0; 0; 0; 0; 0; 0; 0; 0; 0; 0; 0; 0; 0; 0; 32; 33; 8704; 35; 8707; 37; 38; 8715; 40; 41; 8727;
  43; 44; 8722; 46; 47; 48; 49; 50; 51; 52; 53; 54; 55; 56; 57; 58; 59; 60; 61; 62; 63; 8773; 913; 914; 935; 916; 917; 934; 915; 919; 921; 977; 922;
  923; 924; 925; 927; 928; 920; 929; 931; 932; 933; 962; 937; 926; 936; 918; 91; 8756; 93; 8869; 95; 63717; 945; 946; 967; 948; 949; 966; 947; 951;
  953; 981; 954; 955; 956; 957; 959; 960; 952; 961; 963; 964; 965; 982; 969; 958; 968; 950; 123; 124; 125; 8764; 0; 0; 0; 0; 0; 0; 0; 0; 0; 0; 0; 0;
  0; 0; 0; 0; 0; 0; 0; 0; 0; 0; 0; 0; 0; 0; 0; 0; 0; 0; 0; 0; 0; 8364; 978; 8242; 8804; 8260; 8734; 402; 9827; 9830; 9829; 9824; 8596; 8592; 8593;
  8594; 8595; 176; 177; 8243; 8805; 215; 8733; 8706; 8226; 247; 8800; 8801; 8776; 8230; 63718; 63719; 8629; 8501; 8465; 8476; 8472; 8855; 8853; 8709;
  8745; 8746; 8835; 8839; 8836; 8834; 8838; 8712; 8713; 8736; 8711; 63194; 63193; 63195; 8719; 8730; 8901; 172; 8743; 8744; 8660; 8656; 8657; 8658;
  8659; 9674; 9001; 63720; 63721; 63722; 8721; 63723; 63724; 63725; 63726; 63727; 63728; 63729; 63730; 63731; 63732; 0; 9002; 8747; 8992; 63733;
  8993; 63734; 63735; 63736; 63737; 63738; 63739; 63740; 63741; 63742; 0
].
(** PdfPredefinedEncoding.cpp:1120-1340 PdfZapfDingbatsEncoding *)
Definition zapf_table : list Z := [
  0; 0; 0; 0; 0; 0; 0; 0; 0; 0; 0; 0; 0; 0; 0; 0; 0; 0; 0; 0; 0; 0; 0; 0; 0; 0; 0; 0; 0; 0; 0; 0; 32; 9985; 9986; 9987; 9988; 9742; 9990; 9991; 9992;
  9993; 9755; 9758; 9996; 9997; 9998; 9999; 10000; 10001; 10002; 10003; 10004; 10005; 10006; 10007; 10008; 10009; 10010; 10011; 10012; 10013; 10014;
  10015; 10016; 10017; 10018; 10019; 10020; 10021; 10022; 10023; 9733; 10025; 10026; 10027; 10028; 10029; 10030; 10031; 10032; 10033; 10034; 10035;
  10036; 10037; 10038; 10039; 10040; 10041; 10042; 10043; 10044; 10045; 10046; 10047; 10048; 10049; 10050; 10051; 10052; 10053; 10054; 10055; 10056;
  10057; 10058; 10059; 9679; 10061; 9632; 10063; 10064; 10065; 10066; 9650; 9660; 9670; 10070; 9687; 10072; 10073; 10074; 10075; 10076; 10077; 10078;
  0; 63703; 63704; 63705; 63706; 63707; 63708; 63709; 63710; 63711; 63712; 63713; 63714; 63715; 63716; 0; 0; 0; 0; 0; 0; 0; 0; 0; 0; 0; 0; 0; 0; 0;
  0; 0; 0; 0; 10081; 10082; 10083; 10084; 10085; 10086; 10087; 9827; 9830; 9829; 9824; 9312; 9313; 9314; 9315; 9316; 9317; 9318; 9319; 9320; 9321;
  10102; 10103; 10104; 10105; 10106; 10107; 10108; 10109; 10110; 10111; 10112; 10113; 10114; 10115; 10116; 10117; 10118; 10119; 10120; 10121; 10122;
  10123; 10124; 10125; 10126; 10127; 10128; 10129; 10130; 10131; 10132; 8594; 8596; 8597; 10136; 10137; 10138; 10139; 10140; 10141; 10142; 10143;
  10144; 10145; 10146; 10147; 10148; 10149; 10150; 10151; 10152; 10153; 10154; 10155; 10156; 10157; 10158; 10159; 0; 10161; 10162; 10163; 10164;
  10165; 10166; 10167; 10168; 10169; 10170; 10171; 10172; 10173; 10174; 0
].
