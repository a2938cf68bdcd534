(** Productions of asn1.y and the LR(0) automaton behind the tables of y.go, with
    the weights of the termination argument.  Generated by
    tools/gen_automaton.py; data for proofs only (the model does not use it), what
    it says of the tables is checked in [DriverTables]. *)
From Coq Require Import ZArith List.
From Verif Require Import Grammar.
Import ListNotations.
Local Open Scope Z_scope.

(** Productions by number (yyR1 and yyR2, y.go:542-606, and asn1.y): left side and right side; a
    terminal is its internal number (57342 less than its constant), a nonterminal
    is minus its number in yyR1; number 0 is the production of $accept. *)
Definition prods : list (Z * list Z) :=
  [(0, [-121; 1]); (121, [-8; 119; -7; -6; 15; 67; -44; 52]); (4, [6]); (3, [6]); (45, [7]);
   (39, [8]); (5, [7]); (8, [-3; -13]); (13, [26; -11; 27]); (13, []); (11, [-9]);
   (11, [-9; -11]); (9, [-14]); (9, [-10]); (9, [-12]); (10, [8]); (12, [-5; 32; -10; 33]);
   (7, [64; 78]); (7, [108; 78]); (7, [63; 78]); (7, []); (6, [72; 112]); (6, []);
   (44, [-122; -95; -43]); (44, []); (122, [68; -123; 42]); (122, [68; 55; 42]); (122, []);
   (123, [-99]); (123, []); (95, [116; -96; 42]); (95, []); (96, [-97]); (96, []); (97, [-98]);
   (97, [-97; -98]); (98, [-99; 84; -103]); (103, [-3; -102]); (102, [-29]); (102, [-15]);
   (102, []); (99, [-100]); (99, [-99; 30; -100]); (100, [-101]); (101, [-4]); (101, [-3]);
   (101, [-45]); (43, [-40]); (43, [-43; -40]); (40, [-42]); (40, [-41]); (76, [-4]);
   (15, [-3; 31; -45]); (15, [-45]); (42, [-4; 15; -20]); (41, [-45; -20; 15; -31]);
   (20, [-19]); (20, [-77]); (20, [-46]); (19, [-92]); (19, [-18]); (19, [-73]); (19, [-104]);
   (19, [-22]); (19, [-17]); (19, [-21]); (19, [-16]); (19, [-91]); (19, [-33]); (19, [-78]);
   (19, [-79]); (19, [-80]); (19, [-81]); (19, [-23]); (19, [-86]); (77, [-76]); (77, [-90]);
   (24, [-5; -20]); (31, [-30]); (30, [-35]); (30, [-32]); (30, [-29]); (30, [-34]);
   (18, [79]); (35, [86]); (35, [80]); (17, [49]); (17, [49; 26; -115; 27]); (115, [-114]);
   (115, [-115; 30; -114]); (114, [-5; 32; -38; 33]); (114, [-5; 32; -15; 33]); (38, [8]);
   (38, [36; 8]); (32, [-38]); (32, [-5]); (22, [56; 26; -116; 27]); (116, [-118]);
   (116, [-118; 30; 17; -124]); (116, [-118; 30; 17; -124; 30; -119]); (118, [-117]);
   (119, [-117]); (117, [-120]); (117, [-120; 30; -117]); (120, [-114]); (120, [-5]);
   (33, [125]); (34, [-36]); (34, [-37]); (36, [-1]); (36, [36; -1]); (37, [109]); (37, [69]);
   (1, [8]); (1, [8; 31; 8]); (1, [8; 31; 8; 25; -2]); (1, [8; 25; -2]); (2, [8]);
   (2, [36; 8]); (92, [71; 66]); (92, [71; 66; 26; -93; 27]); (93, [-94]);
   (93, [-93; 30; -94]); (94, [-5; 32; -39; 33]); (94, [-5; 32; -15; 33]); (91, [89; 66]);
   (21, [73]); (78, [54; 26; 27]); (78, [54; 26; -125; -126; 27]); (78, [54; 26; -85; 27]);
   (125, [17]); (125, [17; -124]); (126, [30; 17]); (126, []); (85, [-83]);
   (85, [-83; 30; -125; -111; -126]); (85, [-83; 30; -125; -111; -127; 30; -83]); (84, [-83]);
   (127, [30; 17]); (111, [30; -112]); (111, []); (112, [-113]); (112, [-112; 30; -113]);
   (113, [-82]); (113, [-128]); (128, [18; -129; -83; 19]); (129, []); (129, [8; 37]);
   (83, [-82]); (83, [-83; 30; -82]); (82, [-24]); (82, [-24; 97]); (82, [-24; 115; -31]);
   (82, [103; 93; -20]); (80, [58; 26; 27]); (80, [58; 26; -125; -126; 27]);
   (80, [58; 26; -85; 27]); (81, [58; 93; -20]); (81, [58; 93; -24]); (23, [127]);
   (23, [127; 128; 83; -5]); (104, [91; 26; -105; 27]); (105, [-106; 30; -125; -109; -126]);
   (105, [-106]); (105, [-125; -109; -126]); (107, [-106]); (109, [30; -110]); (109, []);
   (110, [-108]); (110, [-110; 30; -108]); (108, [-24]); (130, [18; -129; -106; 19]);
   (106, [-24]); (106, [-106; 30; -24]); (86, [-87; -20]); (86, [-87; 108; -20]);
   (86, [-87; 64; -20]); (87, [34; -89; -88; 35]); (88, [-39]); (88, [-15]); (89, [102]);
   (89, [59]); (89, [121]); (89, []); (79, [54; 93; -20]); (79, [54; 93; -24]);
   (16, [81; 104]); (29, [26; -28; 27]); (29, [26; -15; -28; 27]); (28, [-27]);
   (28, [-27; -28]); (27, [-14]); (27, [-25]); (27, [-26]); (27, [-15]); (25, [8]);
   (25, [-15]); (26, [-5; 32; -25; 33]); (14, [-5]); (73, [-74]); (73, [-75]); (74, [75]);
   (74, [92]); (74, [96]); (74, [100]); (74, [57]); (74, [77]); (74, [117]); (74, [82]);
   (74, [74]); (74, [106]); (74, [114]); (74, [118]); (74, [122]); (75, [87; 66]); (90, [88]);
   (90, [110]); (46, [-20; -48]); (46, [-47]); (47, [58; -48; 93; -20]);
   (47, [58; -68; 93; -20]); (47, [54; -48; 93; -20]); (47, [54; -68; 93; -20]);
   (47, [58; -48; 93; -24]); (47, [58; -68; 93; -24]); (47, [54; -48; 93; -24]);
   (47, [54; -68; 93; -24]); (48, [32; -49; -124; 33]); (49, [-50]); (50, [-51]); (51, [-52]);
   (51, [-52; 30; 17]); (51, [-52; 30; 17; 30; -53]); (52, [-54]); (53, [-54]); (54, [-55]);
   (54, [55; -60]); (55, [-57]); (55, [-56; -131; -57]); (56, [-55]); (57, [-59]);
   (57, [-58; -132; -59]); (58, [-57]); (59, [-61]); (59, [-62; -60]); (62, [-61]);
   (60, [60; -61]); (131, [44]); (131, [94]); (132, [46]); (132, [53]); (61, [-65]);
   (61, [32; -54; 33]); (65, [-63]); (65, [-64]); (65, [-68]); (65, [-66]); (65, [-67]);
   (63, [-31]); (64, [-69; 16; -70]); (69, [-71]); (69, [-71; 28]); (70, [-72]);
   (70, [28; -72]); (71, [-31]); (71, [65]); (72, [-31]); (72, [61]); (68, [62; -48]);
   (66, [-20]); (67, [126; 99; -133]); (67, [126; 103; -134]); (133, [-48]); (134, [-135]);
   (134, [-136]); (135, [26; -137; 27]); (136, [26; 17; 30; -137; 27]); (137, [-138]);
   (137, [-138; 30; -137]); (138, [-5; -139]); (139, [-140; -141]); (140, [-48]); (140, []);
   (141, [113]); (141, [47]); (141, [97]); (141, []); (124, [45; -142]); (124, []);
   (142, [-38]); (142, [-15]); (142, [-20; 37; -31])].

(** The LR(0) items (production, position of the dot) of each state. *)
Definition state_items : list (list (Z * Z)) :=
  [[(0,0); (1,0); (3,0); (7,0)]; [(0,1)]; [(1,1)]; [(7,1); (8,0); (9,0)]; [(3,1)];
   [(1,2); (17,0); (18,0); (19,0); (20,0)]; [(7,2)];
   [(6,0); (8,1); (10,0); (11,0); (12,0); (13,0); (14,0); (15,0); (16,0); (198,0)];
   [(1,3); (21,0); (22,0)]; [(17,1)]; [(18,1)]; [(19,1)]; [(8,2)];
   [(6,0); (10,0); (10,1); (11,0); (11,1); (12,0); (13,0); (14,0); (15,0); (16,0); (198,0)];
   [(12,1)]; [(13,1)]; [(14,1)]; [(16,1); (198,1)]; [(15,1)]; [(6,1)]; [(1,4)]; [(21,1)];
   [(17,2)]; [(18,2)]; [(19,2)]; [(8,3)]; [(11,2)]; [(15,0); (16,2)]; [(1,5)]; [(21,2)];
   [(16,3)]; [(1,6); (23,0); (24,0); (25,0); (26,0); (27,0)]; [(16,4)]; [(1,7)];
   [(23,1); (30,0); (31,0)];
   [(2,0); (3,0); (4,0); (25,1); (26,1); (28,0); (29,0); (41,0); (42,0); (43,0); (44,0); (45,0); (46,0)];
   [(1,8)]; [(2,0); (4,0); (23,2); (47,0); (48,0); (49,0); (50,0); (54,0); (55,0)];
   [(2,0); (3,0); (4,0); (30,1); (32,0); (33,0); (34,0); (35,0); (36,0); (41,0); (42,0); (43,0); (44,0); (45,0); (46,0)];
   [(25,2)]; [(26,2)]; [(28,1); (42,1)]; [(41,1)]; [(43,1)]; [(44,1)]; [(45,1)]; [(46,1)];
   [(2,1); (3,1)]; [(4,1)]; [(2,0); (4,0); (23,3); (48,1); (49,0); (50,0); (54,0); (55,0)];
   [(47,1)]; [(49,1)]; [(50,1)]; [(54,1)];
   [(2,0); (51,0); (55,1); (56,0); (57,0); (58,0); (59,0); (60,0); (61,0); (62,0); (63,0); (64,0); (65,0); (66,0); (67,0); (68,0); (69,0); (70,0); (71,0); (72,0); (73,0); (74,0); (75,0); (76,0); (83,0); (86,0); (87,0); (96,0); (106,0); (119,0); (120,0); (125,0); (126,0); (127,0); (128,0); (129,0); (154,0); (155,0); (156,0); (157,0); (158,0); (159,0); (160,0); (161,0); (174,0); (175,0); (176,0); (177,0); (184,0); (185,0); (186,0); (199,0); (200,0); (201,0); (202,0); (203,0); (204,0); (205,0); (206,0); (207,0); (208,0); (209,0); (210,0); (211,0); (212,0); (213,0); (214,0); (215,0); (216,0); (217,0); (218,0); (219,0); (220,0); (221,0); (222,0); (223,0); (224,0); (225,0); (226,0)];
   [(2,1)]; [(30,2)];
   [(2,0); (3,0); (4,0); (32,1); (35,1); (36,0); (41,0); (42,0); (43,0); (44,0); (45,0); (46,0)];
   [(34,1)]; [(36,1); (42,1)]; [(25,3)]; [(26,3)];
   [(2,0); (3,0); (4,0); (42,2); (43,0); (44,0); (45,0); (46,0)]; [(48,2)];
   [(2,0); (51,0); (54,2); (56,0); (57,0); (58,0); (59,0); (60,0); (61,0); (62,0); (63,0); (64,0); (65,0); (66,0); (67,0); (68,0); (69,0); (70,0); (71,0); (72,0); (73,0); (74,0); (75,0); (76,0); (83,0); (86,0); (87,0); (96,0); (106,0); (119,0); (120,0); (125,0); (126,0); (127,0); (128,0); (129,0); (154,0); (155,0); (156,0); (157,0); (158,0); (159,0); (160,0); (161,0); (174,0); (175,0); (176,0); (177,0); (184,0); (185,0); (186,0); (199,0); (200,0); (201,0); (202,0); (203,0); (204,0); (205,0); (206,0); (207,0); (208,0); (209,0); (210,0); (211,0); (212,0); (213,0); (214,0); (215,0); (216,0); (217,0); (218,0); (219,0); (220,0); (221,0); (222,0); (223,0); (224,0); (225,0); (226,0)];
   [(55,2); (217,1); (227,0)]; [(56,1)]; [(57,1)]; [(58,1)]; [(59,1)]; [(60,1)]; [(61,1)];
   [(62,1)]; [(63,1)]; [(64,1)]; [(65,1)]; [(66,1)]; [(67,1)]; [(68,1)]; [(69,1)]; [(70,1)];
   [(71,1)]; [(72,1)]; [(73,1)]; [(74,1)]; [(75,1)]; [(76,1)]; [(218,1)]; [(119,1); (120,1)];
   [(83,1)]; [(199,1)]; [(200,1)]; [(161,1)]; [(96,1)]; [(86,1); (87,1)]; [(126,1)]; [(186,1)];
   [(125,1)]; [(106,1)];
   [(127,1); (128,1); (129,1); (184,1); (185,1); (221,1); (222,1); (225,1); (226,1); (227,0); (268,0)];
   [(154,1); (155,1); (156,1); (157,1); (158,1); (219,1); (220,1); (223,1); (224,1); (227,0); (268,0)];
   [(159,1); (160,1)];
   [(2,0); (51,0); (56,0); (57,0); (58,0); (59,0); (60,0); (61,0); (62,0); (63,0); (64,0); (65,0); (66,0); (67,0); (68,0); (69,0); (70,0); (71,0); (72,0); (73,0); (74,0); (75,0); (76,0); (83,0); (86,0); (87,0); (96,0); (106,0); (119,0); (120,0); (125,0); (126,0); (127,0); (128,0); (129,0); (154,0); (155,0); (156,0); (157,0); (158,0); (159,0); (160,0); (161,0); (174,0); (174,1); (175,0); (175,1); (176,0); (176,1); (177,0); (184,0); (185,0); (186,0); (199,0); (200,0); (201,0); (202,0); (203,0); (204,0); (205,0); (206,0); (207,0); (208,0); (209,0); (210,0); (211,0); (212,0); (213,0); (214,0); (215,0); (216,0); (217,0); (218,0); (219,0); (220,0); (221,0); (222,0); (223,0); (224,0); (225,0); (226,0)];
   [(51,1)]; [(215,1)]; [(216,1)]; [(201,1)]; [(202,1)]; [(203,1)]; [(204,1)]; [(205,1)];
   [(206,1)]; [(207,1)]; [(208,1)]; [(209,1)]; [(210,1)]; [(211,1)]; [(212,1)]; [(213,1)];
   [(214,1)]; [(177,1); (180,0); (181,0); (182,0); (183,0)]; [(30,3)]; [(35,2)];
   [(3,0); (36,2); (37,0)]; [(42,3)]; [(54,3); (217,1); (227,0)];
   [(6,0); (55,3); (78,0); (79,0); (80,0); (81,0); (82,0); (84,0); (85,0); (92,0); (93,0); (94,0); (95,0); (107,0); (108,0); (109,0); (110,0); (111,0); (112,0); (113,0); (114,0); (115,0); (116,0); (187,0); (188,0)];
   [(217,2)];
   [(2,0); (6,0); (51,0); (56,0); (57,0); (58,0); (59,0); (60,0); (61,0); (62,0); (63,0); (64,0); (65,0); (66,0); (67,0); (68,0); (69,0); (70,0); (71,0); (72,0); (73,0); (74,0); (75,0); (76,0); (78,0); (79,0); (80,0); (81,0); (82,0); (83,0); (84,0); (85,0); (86,0); (87,0); (92,0); (93,0); (94,0); (95,0); (96,0); (106,0); (107,0); (108,0); (109,0); (110,0); (111,0); (112,0); (113,0); (114,0); (115,0); (116,0); (119,0); (120,0); (125,0); (126,0); (127,0); (128,0); (129,0); (154,0); (155,0); (156,0); (157,0); (158,0); (159,0); (160,0); (161,0); (174,0); (175,0); (176,0); (177,0); (184,0); (185,0); (186,0); (187,0); (188,0); (199,0); (200,0); (201,0); (202,0); (203,0); (204,0); (205,0); (206,0); (207,0); (208,0); (209,0); (210,0); (211,0); (212,0); (213,0); (214,0); (215,0); (216,0); (217,0); (218,0); (219,0); (220,0); (221,0); (222,0); (223,0); (224,0); (225,0); (226,0); (227,1); (228,0); (229,0); (230,0); (231,0); (232,0); (233,0); (235,0); (236,0); (237,0); (238,0); (239,0); (240,0); (241,0); (242,0); (243,0); (244,0); (245,0); (251,0); (252,0); (253,0); (254,0); (255,0); (256,0); (257,0); (258,0); (259,0); (260,0); (261,0); (264,0); (265,0); (268,0); (269,0); (270,0); (271,0)];
   [(119,2); (120,2)];
   [(6,0); (77,0); (130,0); (131,0); (161,2); (162,0); (163,0); (164,0); (172,0); (173,0)];
   [(6,0); (90,0); (91,0); (96,2); (97,0); (98,0); (99,0); (100,0); (102,0); (103,0); (104,0); (105,0)];
   [(6,0); (87,2); (88,0); (89,0); (90,0); (91,0)]; [(186,2)]; [(125,2)];
   [(6,0); (77,0); (127,2); (128,2); (129,2); (130,0); (131,0); (134,0); (135,0); (136,0); (148,0); (149,0); (150,0); (151,0); (152,0); (153,0)];
   [(2,0); (6,0); (51,0); (56,0); (57,0); (58,0); (59,0); (60,0); (61,0); (62,0); (63,0); (64,0); (65,0); (66,0); (67,0); (68,0); (69,0); (70,0); (71,0); (72,0); (73,0); (74,0); (75,0); (76,0); (77,0); (83,0); (86,0); (87,0); (96,0); (106,0); (119,0); (120,0); (125,0); (126,0); (127,0); (128,0); (129,0); (154,0); (155,0); (156,0); (157,0); (158,0); (159,0); (160,0); (161,0); (174,0); (175,0); (176,0); (177,0); (184,0); (184,2); (185,0); (185,2); (186,0); (199,0); (200,0); (201,0); (202,0); (203,0); (204,0); (205,0); (206,0); (207,0); (208,0); (209,0); (210,0); (211,0); (212,0); (213,0); (214,0); (215,0); (216,0); (217,0); (218,0); (219,0); (220,0); (221,0); (222,0); (223,0); (224,0); (225,0); (226,0)];
   [(221,2); (225,2)]; [(222,2); (226,2)]; [(227,0); (268,1)];
   [(6,0); (77,0); (130,0); (131,0); (134,0); (135,0); (136,0); (148,0); (149,0); (150,0); (151,0); (152,0); (153,0); (154,2); (155,2); (156,2)];
   [(2,0); (6,0); (51,0); (56,0); (57,0); (58,0); (59,0); (60,0); (61,0); (62,0); (63,0); (64,0); (65,0); (66,0); (67,0); (68,0); (69,0); (70,0); (71,0); (72,0); (73,0); (74,0); (75,0); (76,0); (77,0); (83,0); (86,0); (87,0); (96,0); (106,0); (119,0); (120,0); (125,0); (126,0); (127,0); (128,0); (129,0); (154,0); (155,0); (156,0); (157,0); (157,2); (158,0); (158,2); (159,0); (160,0); (161,0); (174,0); (175,0); (176,0); (177,0); (184,0); (185,0); (186,0); (199,0); (200,0); (201,0); (202,0); (203,0); (204,0); (205,0); (206,0); (207,0); (208,0); (209,0); (210,0); (211,0); (212,0); (213,0); (214,0); (215,0); (216,0); (217,0); (218,0); (219,0); (220,0); (221,0); (222,0); (223,0); (224,0); (225,0); (226,0)];
   [(219,2); (223,2)]; [(220,2); (224,2)]; [(160,2)]; [(174,2); (217,1); (227,0)];
   [(2,0); (51,0); (56,0); (57,0); (58,0); (59,0); (60,0); (61,0); (62,0); (63,0); (64,0); (65,0); (66,0); (67,0); (68,0); (69,0); (70,0); (71,0); (72,0); (73,0); (74,0); (75,0); (76,0); (83,0); (86,0); (87,0); (96,0); (106,0); (119,0); (120,0); (125,0); (126,0); (127,0); (128,0); (129,0); (154,0); (155,0); (156,0); (157,0); (158,0); (159,0); (160,0); (161,0); (174,0); (175,0); (175,2); (176,0); (177,0); (184,0); (185,0); (186,0); (199,0); (200,0); (201,0); (202,0); (203,0); (204,0); (205,0); (206,0); (207,0); (208,0); (209,0); (210,0); (211,0); (212,0); (213,0); (214,0); (215,0); (216,0); (217,0); (218,0); (219,0); (220,0); (221,0); (222,0); (223,0); (224,0); (225,0); (226,0)];
   [(2,0); (51,0); (56,0); (57,0); (58,0); (59,0); (60,0); (61,0); (62,0); (63,0); (64,0); (65,0); (66,0); (67,0); (68,0); (69,0); (70,0); (71,0); (72,0); (73,0); (74,0); (75,0); (76,0); (83,0); (86,0); (87,0); (96,0); (106,0); (119,0); (120,0); (125,0); (126,0); (127,0); (128,0); (129,0); (154,0); (155,0); (156,0); (157,0); (158,0); (159,0); (160,0); (161,0); (174,0); (175,0); (176,0); (176,2); (177,0); (184,0); (185,0); (186,0); (199,0); (200,0); (201,0); (202,0); (203,0); (204,0); (205,0); (206,0); (207,0); (208,0); (209,0); (210,0); (211,0); (212,0); (213,0); (214,0); (215,0); (216,0); (217,0); (218,0); (219,0); (220,0); (221,0); (222,0); (223,0); (224,0); (225,0); (226,0)];
   [(214,2)]; [(3,0); (4,0); (5,0); (52,0); (53,0); (177,2); (178,0); (179,0)]; [(180,1)];
   [(181,1)]; [(182,1)]; [(36,3)];
   [(3,0); (4,0); (37,1); (38,0); (39,0); (40,0); (52,0); (53,0); (187,0); (188,0)]; [(55,4)];
   [(78,1)]; [(79,1)]; [(80,1)]; [(81,1)]; [(82,1)]; [(84,1)]; [(85,1)]; [(94,1)]; [(95,1)];
   [(3,0); (4,0); (6,0); (52,0); (53,0); (187,1); (188,1); (189,0); (190,0); (191,0); (192,0); (193,0); (194,0); (195,0); (196,0); (197,0); (198,0)];
   [(107,1)]; [(108,1)]; [(92,1); (113,1); (114,1); (115,1); (116,1)];
   [(93,1); (110,1); (113,0); (114,0); (115,0); (116,0)]; [(109,1)]; [(111,1)]; [(112,1)];
   [(227,2); (287,0); (288,0)]; [(228,1)]; [(229,1)]; [(230,1); (231,1); (232,1)]; [(233,1)];
   [(235,1); (239,1)]; [(236,1); (246,0)]; [(237,1); (242,1)]; [(238,1); (247,0); (248,0)];
   [(240,1)]; [(241,1); (249,0); (250,0)]; [(243,1); (245,1)]; [(244,1); (246,0)]; [(251,1)];
   [(2,0); (6,0); (51,0); (56,0); (57,0); (58,0); (59,0); (60,0); (61,0); (62,0); (63,0); (64,0); (65,0); (66,0); (67,0); (68,0); (69,0); (70,0); (71,0); (72,0); (73,0); (74,0); (75,0); (76,0); (78,0); (79,0); (80,0); (81,0); (82,0); (83,0); (84,0); (85,0); (86,0); (87,0); (92,0); (93,0); (94,0); (95,0); (96,0); (106,0); (107,0); (108,0); (109,0); (110,0); (111,0); (112,0); (113,0); (114,0); (115,0); (116,0); (119,0); (120,0); (125,0); (126,0); (127,0); (128,0); (129,0); (154,0); (155,0); (156,0); (157,0); (158,0); (159,0); (160,0); (161,0); (174,0); (175,0); (176,0); (177,0); (184,0); (185,0); (186,0); (187,0); (188,0); (199,0); (200,0); (201,0); (202,0); (203,0); (204,0); (205,0); (206,0); (207,0); (208,0); (209,0); (210,0); (211,0); (212,0); (213,0); (214,0); (215,0); (216,0); (217,0); (218,0); (219,0); (220,0); (221,0); (222,0); (223,0); (224,0); (225,0); (226,0); (235,0); (236,0); (237,0); (238,0); (239,0); (240,0); (241,0); (242,0); (243,0); (244,0); (245,0); (251,0); (252,0); (252,1); (253,0); (254,0); (255,0); (256,0); (257,0); (258,0); (259,0); (260,0); (261,0); (264,0); (265,0); (268,0); (269,0); (270,0); (271,0)];
   [(253,1)]; [(254,1)]; [(255,1)]; [(256,1)]; [(257,1)]; [(258,1); (264,1)]; [(259,1)];
   [(217,1); (227,0); (269,1)]; [(270,1); (271,1)]; [(260,1); (261,1)]; [(265,1)];
   [(6,0); (120,3); (121,0); (122,0); (123,0); (124,0)]; [(161,3)];
   [(162,1); (163,1); (173,1)]; [(164,1); (166,0); (167,0)]; [(172,1)];
   [(130,1); (131,1); (287,0); (288,0)];
   [(2,0); (51,0); (56,0); (57,0); (58,0); (59,0); (60,0); (61,0); (62,0); (63,0); (64,0); (65,0); (66,0); (67,0); (68,0); (69,0); (70,0); (71,0); (72,0); (73,0); (74,0); (75,0); (76,0); (77,1); (83,0); (86,0); (87,0); (96,0); (106,0); (119,0); (120,0); (125,0); (126,0); (127,0); (128,0); (129,0); (154,0); (155,0); (156,0); (157,0); (158,0); (159,0); (160,0); (161,0); (174,0); (175,0); (176,0); (177,0); (184,0); (185,0); (186,0); (199,0); (200,0); (201,0); (202,0); (203,0); (204,0); (205,0); (206,0); (207,0); (208,0); (209,0); (210,0); (211,0); (212,0); (213,0); (214,0); (215,0); (216,0); (217,0); (218,0); (219,0); (220,0); (221,0); (222,0); (223,0); (224,0); (225,0); (226,0)];
   [(96,3)]; [(97,1); (98,1); (99,1)]; [(100,1)]; [(102,1); (103,1)]; [(104,1)];
   [(90,1); (91,1); (105,1)]; [(87,3); (89,1)]; [(88,1)]; [(90,1); (91,1)]; [(127,3)];
   [(128,3); (132,0); (133,0)]; [(129,3)]; [(134,1); (135,1); (136,1); (149,1)]; [(148,1)];
   [(150,1); (151,1); (152,1)]; [(153,1)]; [(184,3); (217,1); (227,0)]; [(185,3)];
   [(2,0); (6,0); (51,0); (56,0); (57,0); (58,0); (59,0); (60,0); (61,0); (62,0); (63,0); (64,0); (65,0); (66,0); (67,0); (68,0); (69,0); (70,0); (71,0); (72,0); (73,0); (74,0); (75,0); (76,0); (77,0); (83,0); (86,0); (87,0); (96,0); (106,0); (119,0); (120,0); (125,0); (126,0); (127,0); (128,0); (129,0); (154,0); (155,0); (156,0); (157,0); (158,0); (159,0); (160,0); (161,0); (174,0); (175,0); (176,0); (177,0); (184,0); (185,0); (186,0); (199,0); (200,0); (201,0); (202,0); (203,0); (204,0); (205,0); (206,0); (207,0); (208,0); (209,0); (210,0); (211,0); (212,0); (213,0); (214,0); (215,0); (216,0); (217,0); (218,0); (219,0); (220,0); (221,0); (221,3); (222,0); (223,0); (224,0); (225,0); (225,3); (226,0)];
   [(2,0); (6,0); (51,0); (56,0); (57,0); (58,0); (59,0); (60,0); (61,0); (62,0); (63,0); (64,0); (65,0); (66,0); (67,0); (68,0); (69,0); (70,0); (71,0); (72,0); (73,0); (74,0); (75,0); (76,0); (77,0); (83,0); (86,0); (87,0); (96,0); (106,0); (119,0); (120,0); (125,0); (126,0); (127,0); (128,0); (129,0); (154,0); (155,0); (156,0); (157,0); (158,0); (159,0); (160,0); (161,0); (174,0); (175,0); (176,0); (177,0); (184,0); (185,0); (186,0); (199,0); (200,0); (201,0); (202,0); (203,0); (204,0); (205,0); (206,0); (207,0); (208,0); (209,0); (210,0); (211,0); (212,0); (213,0); (214,0); (215,0); (216,0); (217,0); (218,0); (219,0); (220,0); (221,0); (222,0); (222,3); (223,0); (224,0); (225,0); (226,0); (226,3)];
   [(268,2)]; [(154,3)]; [(132,0); (133,0); (155,3)]; [(156,3)]; [(157,3); (217,1); (227,0)];
   [(158,3)];
   [(2,0); (6,0); (51,0); (56,0); (57,0); (58,0); (59,0); (60,0); (61,0); (62,0); (63,0); (64,0); (65,0); (66,0); (67,0); (68,0); (69,0); (70,0); (71,0); (72,0); (73,0); (74,0); (75,0); (76,0); (77,0); (83,0); (86,0); (87,0); (96,0); (106,0); (119,0); (120,0); (125,0); (126,0); (127,0); (128,0); (129,0); (154,0); (155,0); (156,0); (157,0); (158,0); (159,0); (160,0); (161,0); (174,0); (175,0); (176,0); (177,0); (184,0); (185,0); (186,0); (199,0); (200,0); (201,0); (202,0); (203,0); (204,0); (205,0); (206,0); (207,0); (208,0); (209,0); (210,0); (211,0); (212,0); (213,0); (214,0); (215,0); (216,0); (217,0); (218,0); (219,0); (219,3); (220,0); (221,0); (222,0); (223,0); (223,3); (224,0); (225,0); (226,0)];
   [(2,0); (6,0); (51,0); (56,0); (57,0); (58,0); (59,0); (60,0); (61,0); (62,0); (63,0); (64,0); (65,0); (66,0); (67,0); (68,0); (69,0); (70,0); (71,0); (72,0); (73,0); (74,0); (75,0); (76,0); (77,0); (83,0); (86,0); (87,0); (96,0); (106,0); (119,0); (120,0); (125,0); (126,0); (127,0); (128,0); (129,0); (154,0); (155,0); (156,0); (157,0); (158,0); (159,0); (160,0); (161,0); (174,0); (175,0); (176,0); (177,0); (184,0); (185,0); (186,0); (199,0); (200,0); (201,0); (202,0); (203,0); (204,0); (205,0); (206,0); (207,0); (208,0); (209,0); (210,0); (211,0); (212,0); (213,0); (214,0); (215,0); (216,0); (217,0); (218,0); (219,0); (220,0); (220,3); (221,0); (222,0); (223,0); (224,0); (224,3); (225,0); (226,0)];
   [(6,0); (160,3)]; [(175,3); (217,1); (227,0)]; [(176,3); (217,1); (227,0)]; [(177,3)];
   [(178,1)]; [(179,1)]; [(5,1)]; [(52,1)]; [(53,1)]; [(37,2)]; [(38,1)]; [(39,1)]; [(187,2)];
   [(3,0); (4,0); (6,0); (52,0); (53,0); (188,2); (189,0); (190,0); (191,0); (192,0); (193,0); (194,0); (194,1); (195,0); (196,0); (196,1); (197,0); (198,0)];
   [(3,0); (4,0); (6,0); (52,0); (53,0); (189,0); (189,1); (190,0); (190,1); (191,0); (192,0); (193,0); (194,0); (195,0); (196,0); (197,0); (198,0)];
   [(191,1)]; [(192,1)]; [(193,1)]; [(4,1); (6,1)]; [(197,1); (198,1)]; [(195,1)];
   [(114,2); (115,2)]; [(116,2); (117,0); (118,0)];
   [(93,2); (113,1); (114,1); (115,1); (116,1)]; [(110,2)]; [(227,3)];
   [(2,0); (3,0); (4,0); (51,0); (52,0); (53,0); (56,0); (57,0); (58,0); (59,0); (60,0); (61,0); (62,0); (63,0); (64,0); (65,0); (66,0); (67,0); (68,0); (69,0); (70,0); (71,0); (72,0); (73,0); (74,0); (75,0); (76,0); (83,0); (86,0); (87,0); (92,0); (93,0); (96,0); (106,0); (119,0); (120,0); (125,0); (126,0); (127,0); (128,0); (129,0); (154,0); (155,0); (156,0); (157,0); (158,0); (159,0); (160,0); (161,0); (174,0); (175,0); (176,0); (177,0); (184,0); (185,0); (186,0); (199,0); (200,0); (201,0); (202,0); (203,0); (204,0); (205,0); (206,0); (207,0); (208,0); (209,0); (210,0); (211,0); (212,0); (213,0); (214,0); (215,0); (216,0); (217,0); (218,0); (219,0); (220,0); (221,0); (222,0); (223,0); (224,0); (225,0); (226,0); (287,1); (289,0); (290,0); (291,0)];
   [(231,2); (232,2)]; [(236,2)];
   [(2,0); (6,0); (51,0); (56,0); (57,0); (58,0); (59,0); (60,0); (61,0); (62,0); (63,0); (64,0); (65,0); (66,0); (67,0); (68,0); (69,0); (70,0); (71,0); (72,0); (73,0); (74,0); (75,0); (76,0); (78,0); (79,0); (80,0); (81,0); (82,0); (83,0); (84,0); (85,0); (86,0); (87,0); (92,0); (93,0); (94,0); (95,0); (96,0); (106,0); (107,0); (108,0); (109,0); (110,0); (111,0); (112,0); (113,0); (114,0); (115,0); (116,0); (119,0); (120,0); (125,0); (126,0); (127,0); (128,0); (129,0); (154,0); (155,0); (156,0); (157,0); (158,0); (159,0); (160,0); (161,0); (174,0); (175,0); (176,0); (177,0); (184,0); (185,0); (186,0); (187,0); (188,0); (199,0); (200,0); (201,0); (202,0); (203,0); (204,0); (205,0); (206,0); (207,0); (208,0); (209,0); (210,0); (211,0); (212,0); (213,0); (214,0); (215,0); (216,0); (217,0); (218,0); (219,0); (220,0); (221,0); (222,0); (223,0); (224,0); (225,0); (226,0); (246,1); (251,0); (252,0); (253,0); (254,0); (255,0); (256,0); (257,0); (258,0); (259,0); (260,0); (261,0); (264,0); (265,0); (268,0); (269,0); (270,0); (271,0)];
   [(2,0); (6,0); (51,0); (56,0); (57,0); (58,0); (59,0); (60,0); (61,0); (62,0); (63,0); (64,0); (65,0); (66,0); (67,0); (68,0); (69,0); (70,0); (71,0); (72,0); (73,0); (74,0); (75,0); (76,0); (78,0); (79,0); (80,0); (81,0); (82,0); (83,0); (84,0); (85,0); (86,0); (87,0); (92,0); (93,0); (94,0); (95,0); (96,0); (106,0); (107,0); (108,0); (109,0); (110,0); (111,0); (112,0); (113,0); (114,0); (115,0); (116,0); (119,0); (120,0); (125,0); (126,0); (127,0); (128,0); (129,0); (154,0); (155,0); (156,0); (157,0); (158,0); (159,0); (160,0); (161,0); (174,0); (175,0); (176,0); (177,0); (184,0); (185,0); (186,0); (187,0); (188,0); (199,0); (200,0); (201,0); (202,0); (203,0); (204,0); (205,0); (206,0); (207,0); (208,0); (209,0); (210,0); (211,0); (212,0); (213,0); (214,0); (215,0); (216,0); (217,0); (218,0); (219,0); (220,0); (221,0); (222,0); (223,0); (224,0); (225,0); (226,0); (238,2); (240,0); (241,0); (242,0); (243,0); (244,0); (245,0); (251,0); (252,0); (253,0); (254,0); (255,0); (256,0); (257,0); (258,0); (259,0); (260,0); (261,0); (264,0); (265,0); (268,0); (269,0); (270,0); (271,0)];
   [(247,1)]; [(248,1)];
   [(2,0); (6,0); (51,0); (56,0); (57,0); (58,0); (59,0); (60,0); (61,0); (62,0); (63,0); (64,0); (65,0); (66,0); (67,0); (68,0); (69,0); (70,0); (71,0); (72,0); (73,0); (74,0); (75,0); (76,0); (78,0); (79,0); (80,0); (81,0); (82,0); (83,0); (84,0); (85,0); (86,0); (87,0); (92,0); (93,0); (94,0); (95,0); (96,0); (106,0); (107,0); (108,0); (109,0); (110,0); (111,0); (112,0); (113,0); (114,0); (115,0); (116,0); (119,0); (120,0); (125,0); (126,0); (127,0); (128,0); (129,0); (154,0); (155,0); (156,0); (157,0); (158,0); (159,0); (160,0); (161,0); (174,0); (175,0); (176,0); (177,0); (184,0); (185,0); (186,0); (187,0); (188,0); (199,0); (200,0); (201,0); (202,0); (203,0); (204,0); (205,0); (206,0); (207,0); (208,0); (209,0); (210,0); (211,0); (212,0); (213,0); (214,0); (215,0); (216,0); (217,0); (218,0); (219,0); (220,0); (221,0); (222,0); (223,0); (224,0); (225,0); (226,0); (241,2); (243,0); (244,0); (245,0); (251,0); (252,0); (253,0); (254,0); (255,0); (256,0); (257,0); (258,0); (259,0); (260,0); (261,0); (264,0); (265,0); (268,0); (269,0); (270,0); (271,0)];
   [(249,1)]; [(250,1)]; [(244,2)]; [(252,2)];
   [(6,0); (78,0); (79,0); (80,0); (81,0); (82,0); (84,0); (85,0); (92,0); (93,0); (94,0); (95,0); (107,0); (108,0); (109,0); (110,0); (111,0); (112,0); (113,0); (114,0); (115,0); (116,0); (187,0); (188,0); (259,2); (262,0); (263,0); (266,0); (267,0)];
   [(227,0); (270,2); (272,0)]; [(271,2); (273,0); (274,0); (275,0); (276,0)]; [(261,2)];
   [(120,4); (122,1)]; [(121,1)]; [(123,1); (124,1)]; [(161,4)];
   [(6,0); (77,0); (130,0); (131,0); (162,2); (173,2)]; [(132,0); (133,0); (164,2)];
   [(6,0); (77,0); (166,1); (168,0); (169,0); (170,0)]; [(131,2)]; [(77,2); (217,1); (227,0)];
   [(96,4)]; [(98,2); (99,2)];
   [(6,0); (90,0); (91,0); (102,0); (103,0); (103,2); (104,0); (105,0)];
   [(3,0); (4,0); (52,0); (53,0); (90,2); (91,2); (92,0); (93,0)]; [(87,4)];
   [(6,0); (89,2); (90,0); (91,0)]; [(128,4)]; [(132,1)]; [(129,4)];
   [(6,0); (77,0); (130,0); (131,0); (135,2); (136,2); (149,2); (150,0); (151,0); (152,0); (153,0)];
   [(151,2)];
   [(6,0); (78,0); (79,0); (80,0); (81,0); (82,0); (84,0); (85,0); (92,0); (93,0); (94,0); (95,0); (107,0); (108,0); (109,0); (110,0); (111,0); (112,0); (113,0); (114,0); (115,0); (116,0); (152,2); (187,0); (188,0)];
   [(2,0); (51,0); (56,0); (57,0); (58,0); (59,0); (60,0); (61,0); (62,0); (63,0); (64,0); (65,0); (66,0); (67,0); (68,0); (69,0); (70,0); (71,0); (72,0); (73,0); (74,0); (75,0); (76,0); (83,0); (86,0); (87,0); (96,0); (106,0); (119,0); (120,0); (125,0); (126,0); (127,0); (128,0); (129,0); (153,2); (154,0); (155,0); (156,0); (157,0); (158,0); (159,0); (160,0); (161,0); (174,0); (175,0); (176,0); (177,0); (184,0); (185,0); (186,0); (199,0); (200,0); (201,0); (202,0); (203,0); (204,0); (205,0); (206,0); (207,0); (208,0); (209,0); (210,0); (211,0); (212,0); (213,0); (214,0); (215,0); (216,0); (217,0); (218,0); (219,0); (220,0); (221,0); (222,0); (223,0); (224,0); (225,0); (226,0)];
   [(217,1); (221,4); (227,0)]; [(225,4)]; [(217,1); (222,4); (227,0)]; [(226,4)]; [(155,4)];
   [(156,4)]; [(217,1); (219,4); (227,0)]; [(223,4)]; [(217,1); (220,4); (227,0)]; [(224,4)];
   [(160,4)]; [(177,4)]; [(4,0); (52,2)]; [(187,3)]; [(188,3)]; [(194,1); (196,1)]; [(190,2)];
   [(3,0); (4,0); (52,0); (53,0); (195,0); (196,0); (197,2)]; [(114,3); (115,3)]; [(116,3)];
   [(117,1)]; [(118,1)]; [(227,4)]; [(287,2)]; [(289,1)]; [(290,1)];
   [(217,1); (227,0); (291,1)]; [(92,1)]; [(93,1)]; [(231,3); (232,3)]; [(246,2)];
   [(238,3); (242,1)]; [(241,3)]; [(252,3)]; [(259,3)]; [(262,1)];
   [(6,0); (78,0); (79,0); (80,0); (81,0); (82,0); (84,0); (85,0); (92,0); (93,0); (94,0); (95,0); (107,0); (108,0); (109,0); (110,0); (111,0); (112,0); (113,0); (114,0); (115,0); (116,0); (187,0); (188,0); (263,1); (266,0); (267,0)];
   [(266,1)]; [(267,1)]; [(270,3)]; [(272,1)]; [(271,3)]; [(273,1)]; [(274,1)];
   [(6,0); (275,1); (276,1); (277,0); (278,0); (279,0)]; [(120,5)];
   [(6,0); (122,2); (123,0); (124,0)]; [(3,0); (4,0); (5,0); (52,0); (53,0); (123,2); (124,2)];
   [(162,3); (166,0); (167,0)]; [(173,3)]; [(164,3)]; [(166,2); (169,1)]; [(168,1)]; [(170,1)];
   [(98,3); (99,3); (287,0); (288,0)]; [(103,3)]; [(90,3)]; [(91,3)]; [(89,3)]; [(128,5)];
   [(132,2)]; [(135,3); (136,3); (139,0); (140,0)]; [(149,3)]; [(152,3)];
   [(153,3); (217,1); (227,0)]; [(155,5)]; [(52,3)]; [(188,4)]; [(197,3)]; [(196,1)];
   [(115,4); (117,0); (118,0)]; [(118,2)];
   [(6,0); (78,0); (79,0); (80,0); (81,0); (82,0); (84,0); (85,0); (92,0); (93,0); (94,0); (95,0); (107,0); (108,0); (109,0); (110,0); (111,0); (112,0); (113,0); (114,0); (115,0); (116,0); (187,0); (188,0); (291,2)];
   [(93,2)];
   [(2,0); (6,0); (51,0); (56,0); (57,0); (58,0); (59,0); (60,0); (61,0); (62,0); (63,0); (64,0); (65,0); (66,0); (67,0); (68,0); (69,0); (70,0); (71,0); (72,0); (73,0); (74,0); (75,0); (76,0); (78,0); (79,0); (80,0); (81,0); (82,0); (83,0); (84,0); (85,0); (86,0); (87,0); (92,0); (93,0); (94,0); (95,0); (96,0); (106,0); (107,0); (108,0); (109,0); (110,0); (111,0); (112,0); (113,0); (114,0); (115,0); (116,0); (119,0); (120,0); (125,0); (126,0); (127,0); (128,0); (129,0); (154,0); (155,0); (156,0); (157,0); (158,0); (159,0); (160,0); (161,0); (174,0); (175,0); (176,0); (177,0); (184,0); (185,0); (186,0); (187,0); (188,0); (199,0); (200,0); (201,0); (202,0); (203,0); (204,0); (205,0); (206,0); (207,0); (208,0); (209,0); (210,0); (211,0); (212,0); (213,0); (214,0); (215,0); (216,0); (217,0); (218,0); (219,0); (220,0); (221,0); (222,0); (223,0); (224,0); (225,0); (226,0); (232,4); (234,0); (235,0); (236,0); (237,0); (238,0); (239,0); (240,0); (241,0); (242,0); (243,0); (244,0); (245,0); (251,0); (252,0); (253,0); (254,0); (255,0); (256,0); (257,0); (258,0); (259,0); (260,0); (261,0); (264,0); (265,0); (268,0); (269,0); (270,0); (271,0)];
   [(263,2)]; [(275,2)]; [(276,2)]; [(277,1); (278,1)];
   [(227,0); (279,1); (280,0); (281,0); (282,0)]; [(122,3)]; [(123,3)]; [(124,3)];
   [(132,0); (133,0); (162,4)]; [(6,0); (77,0); (169,2); (170,0)]; [(98,4); (99,4)]; [(90,4)];
   [(91,4)]; [(132,0); (133,0); (135,4); (136,4); (138,0)];
   [(6,0); (77,0); (139,1); (141,0); (142,0); (143,0); (144,0); (145,0); (150,0); (151,0); (152,0); (153,0)];
   [(197,4)]; [(115,5)]; [(291,3)]; [(232,5)]; [(234,1)]; [(275,3)];
   [(6,0); (276,3); (277,0); (278,0); (279,0)]; [(6,0); (277,0); (278,0); (278,2); (279,0)];
   [(279,2)]; [(280,1); (283,0); (284,0); (285,0); (286,0)]; [(281,1)]; [(123,4)]; [(124,4)];
   [(162,5)]; [(169,3)];
   [(6,0); (90,0); (91,0); (99,5); (101,0); (102,0); (103,0); (104,0); (105,0)]; [(135,5)];
   [(136,5)]; [(132,1); (138,1)]; [(139,2); (142,1)]; [(141,1)]; [(143,1)]; [(144,1)];
   [(145,1); (146,0); (147,0)]; [(276,4)]; [(278,3)]; [(280,2)]; [(283,1)]; [(284,1)];
   [(285,1)]; [(99,6)]; [(101,1)];
   [(6,0); (77,0); (136,6); (148,0); (149,0); (150,0); (151,0); (152,0); (153,0)];
   [(132,2); (138,2)];
   [(6,0); (77,0); (142,2); (143,0); (144,0); (145,0); (150,0); (151,0); (152,0); (153,0)];
   [(6,0); (77,0); (145,2); (148,0); (149,0); (150,0); (151,0); (152,0); (153,0)]; [(147,1)];
   [(276,5)]; [(136,7); (149,1)]; [(142,3)]; [(145,3); (149,1)]; [(147,2)];
   [(6,0); (77,0); (149,2); (150,0); (151,0); (152,0); (153,0)]; [(145,4)]].

(** The successors of each state. *)
Definition state_succs : list (list Z) :=
  [[1; 2; 3; 4]; []; [5]; [6; 7]; []; [8; 9; 10; 11]; []; [12; 13; 14; 15; 16; 17; 18; 19];
   [20; 21]; [22]; [23]; [24]; [25]; [13; 14; 15; 16; 17; 18; 19; 26]; []; []; []; [27]; [];
   []; [28]; [29]; []; []; []; []; []; [18; 30]; [31]; []; [32]; [33; 34; 35]; []; [36];
   [37; 38]; [39; 40; 41; 42; 43; 44; 45; 46; 47; 48]; []; [48; 49; 50; 51; 52; 53; 54; 55];
   [42; 43; 44; 45; 46; 47; 48; 56; 57; 58; 59]; [60]; [61]; [62]; []; []; []; []; []; []; [];
   [48; 51; 52; 53; 54; 55; 63]; []; []; []; [64];
   [55; 65; 66; 67; 68; 69; 70; 71; 72; 73; 74; 75; 76; 77; 78; 79; 80; 81; 82; 83; 84; 85; 86; 87; 88; 89; 90; 91; 92; 93; 94; 95; 96; 97; 98; 99; 100; 101; 102; 103; 104; 105; 106; 107; 108; 109; 110; 111; 112; 113; 114; 115; 116; 117; 118; 119; 120];
   []; [121]; [42; 43; 44; 45; 46; 47; 48; 59; 122]; []; [62; 123]; []; [];
   [43; 44; 45; 46; 47; 48; 124]; [];
   [55; 66; 67; 68; 69; 70; 71; 72; 73; 74; 75; 76; 77; 78; 79; 80; 81; 82; 83; 84; 85; 86; 87; 88; 89; 90; 91; 92; 93; 94; 95; 96; 97; 98; 99; 100; 101; 102; 103; 104; 105; 106; 107; 108; 109; 110; 111; 112; 113; 114; 115; 116; 117; 118; 119; 120; 125];
   [126; 127; 128]; []; []; []; []; []; []; []; []; []; []; []; []; []; []; []; []; []; []; [];
   []; []; []; [129]; []; []; []; [130]; [131]; [132]; []; [133]; [134]; [];
   [128; 135; 136; 137; 138; 139]; [128; 139; 140; 141; 142; 143]; [144];
   [55; 66; 67; 68; 69; 70; 71; 72; 73; 74; 75; 76; 77; 78; 79; 80; 81; 82; 83; 84; 85; 86; 87; 88; 89; 90; 91; 92; 93; 94; 95; 96; 97; 98; 99; 100; 101; 102; 103; 104; 105; 106; 107; 108; 109; 110; 111; 112; 113; 114; 115; 116; 117; 118; 119; 120; 145; 146; 147];
   []; []; []; []; []; []; []; []; []; []; []; []; []; []; []; []; [148]; [149; 150; 151; 152];
   []; []; [4; 153; 154]; []; [127; 128];
   [19; 155; 156; 157; 158; 159; 160; 161; 162; 163; 164; 165; 166; 167; 168; 169; 170; 171; 172];
   [];
   [19; 55; 66; 67; 68; 69; 70; 71; 72; 73; 74; 75; 76; 77; 78; 79; 80; 81; 82; 83; 84; 85; 86; 87; 88; 89; 90; 91; 92; 93; 94; 95; 96; 97; 98; 99; 100; 101; 102; 103; 104; 105; 106; 107; 108; 109; 110; 111; 112; 113; 114; 115; 116; 117; 118; 119; 120; 139; 156; 157; 158; 159; 160; 161; 162; 163; 164; 165; 166; 167; 168; 169; 170; 171; 172; 173; 174; 175; 176; 177; 178; 179; 180; 181; 182; 183; 184; 185; 186; 187; 188; 189; 190; 191; 192; 193; 194; 195; 196; 197; 198];
   [199]; [19; 200; 201; 202; 203; 204; 205]; [19; 206; 207; 208; 209; 210; 211];
   [19; 212; 213; 214]; []; []; [19; 204; 205; 215; 216; 217; 218; 219; 220; 221];
   [19; 55; 66; 67; 68; 69; 70; 71; 72; 73; 74; 75; 76; 77; 78; 79; 80; 81; 82; 83; 84; 85; 86; 87; 88; 89; 90; 91; 92; 93; 94; 95; 96; 97; 98; 99; 100; 101; 102; 103; 104; 105; 106; 107; 108; 109; 110; 111; 112; 113; 114; 115; 116; 117; 118; 119; 120; 205; 222; 223];
   [224]; [225]; [128; 226]; [19; 204; 205; 218; 219; 220; 221; 227; 228; 229];
   [19; 55; 66; 67; 68; 69; 70; 71; 72; 73; 74; 75; 76; 77; 78; 79; 80; 81; 82; 83; 84; 85; 86; 87; 88; 89; 90; 91; 92; 93; 94; 95; 96; 97; 98; 99; 100; 101; 102; 103; 104; 105; 106; 107; 108; 109; 110; 111; 112; 113; 114; 115; 116; 117; 118; 119; 120; 205; 230; 231];
   [232]; [233]; [234]; [127; 128];
   [55; 66; 67; 68; 69; 70; 71; 72; 73; 74; 75; 76; 77; 78; 79; 80; 81; 82; 83; 84; 85; 86; 87; 88; 89; 90; 91; 92; 93; 94; 95; 96; 97; 98; 99; 100; 101; 102; 103; 104; 105; 106; 107; 108; 109; 110; 111; 112; 113; 114; 115; 116; 117; 118; 119; 120; 235];
   [55; 66; 67; 68; 69; 70; 71; 72; 73; 74; 75; 76; 77; 78; 79; 80; 81; 82; 83; 84; 85; 86; 87; 88; 89; 90; 91; 92; 93; 94; 95; 96; 97; 98; 99; 100; 101; 102; 103; 104; 105; 106; 107; 108; 109; 110; 111; 112; 113; 114; 115; 116; 117; 118; 119; 120; 236];
   []; [4; 48; 237; 238; 239; 240; 241; 242]; []; []; []; [];
   [4; 48; 165; 241; 242; 243; 244; 245]; []; []; []; []; []; []; []; []; []; [];
   [4; 241; 242; 246; 247; 248; 249; 250; 251; 252; 253; 254]; []; []; [255; 256]; [257; 258];
   []; []; []; [259; 260]; []; []; [261]; []; []; [262; 263]; []; [264; 265; 266]; [];
   [267; 268; 269]; []; [263; 270]; [];
   [19; 55; 66; 67; 68; 69; 70; 71; 72; 73; 74; 75; 76; 77; 78; 79; 80; 81; 82; 83; 84; 85; 86; 87; 88; 89; 90; 91; 92; 93; 94; 95; 96; 97; 98; 99; 100; 101; 102; 103; 104; 105; 106; 107; 108; 109; 110; 111; 112; 113; 114; 115; 116; 117; 118; 119; 120; 139; 156; 157; 158; 159; 160; 161; 162; 163; 164; 165; 166; 167; 168; 169; 170; 171; 172; 178; 179; 180; 181; 182; 183; 184; 185; 186; 187; 188; 189; 190; 191; 192; 193; 194; 195; 196; 197; 198; 271];
   []; []; []; []; []; []; [272]; [127; 128]; [273; 274]; [275]; []; [19; 276; 277; 278];
   [279]; [280]; [281; 282]; []; [260; 283];
   [55; 66; 67; 68; 69; 70; 71; 72; 73; 74; 75; 76; 77; 78; 79; 80; 81; 82; 83; 84; 85; 86; 87; 88; 89; 90; 91; 92; 93; 94; 95; 96; 97; 98; 99; 100; 101; 102; 103; 104; 105; 106; 107; 108; 109; 110; 111; 112; 113; 114; 115; 116; 117; 118; 119; 120; 284];
   [285]; [286]; []; [287]; []; [288]; [289; 290]; []; [288]; []; [291; 292]; [293]; [294]; [];
   [295; 296]; [297]; [127; 128]; [];
   [19; 55; 66; 67; 68; 69; 70; 71; 72; 73; 74; 75; 76; 77; 78; 79; 80; 81; 82; 83; 84; 85; 86; 87; 88; 89; 90; 91; 92; 93; 94; 95; 96; 97; 98; 99; 100; 101; 102; 103; 104; 105; 106; 107; 108; 109; 110; 111; 112; 113; 114; 115; 116; 117; 118; 119; 120; 205; 298; 299];
   [19; 55; 66; 67; 68; 69; 70; 71; 72; 73; 74; 75; 76; 77; 78; 79; 80; 81; 82; 83; 84; 85; 86; 87; 88; 89; 90; 91; 92; 93; 94; 95; 96; 97; 98; 99; 100; 101; 102; 103; 104; 105; 106; 107; 108; 109; 110; 111; 112; 113; 114; 115; 116; 117; 118; 119; 120; 205; 300; 301];
   []; []; [292; 302]; [303]; [127; 128]; [];
   [19; 55; 66; 67; 68; 69; 70; 71; 72; 73; 74; 75; 76; 77; 78; 79; 80; 81; 82; 83; 84; 85; 86; 87; 88; 89; 90; 91; 92; 93; 94; 95; 96; 97; 98; 99; 100; 101; 102; 103; 104; 105; 106; 107; 108; 109; 110; 111; 112; 113; 114; 115; 116; 117; 118; 119; 120; 205; 304; 305];
   [19; 55; 66; 67; 68; 69; 70; 71; 72; 73; 74; 75; 76; 77; 78; 79; 80; 81; 82; 83; 84; 85; 86; 87; 88; 89; 90; 91; 92; 93; 94; 95; 96; 97; 98; 99; 100; 101; 102; 103; 104; 105; 106; 107; 108; 109; 110; 111; 112; 113; 114; 115; 116; 117; 118; 119; 120; 205; 306; 307];
   [19; 308]; [127; 128]; [127; 128]; [309]; []; []; []; [310]; []; []; []; []; [311];
   [4; 241; 242; 248; 249; 250; 251; 252; 253; 254; 312; 313];
   [4; 241; 242; 248; 249; 250; 251; 252; 253; 254; 313; 314]; []; []; []; []; [315]; [];
   [316]; [317; 318; 319]; [255; 256]; []; [320];
   [47; 48; 66; 67; 68; 69; 70; 71; 72; 73; 74; 75; 76; 77; 78; 79; 80; 81; 82; 83; 84; 85; 86; 87; 88; 89; 90; 91; 92; 93; 94; 95; 96; 97; 98; 99; 100; 101; 102; 103; 104; 105; 106; 107; 108; 109; 110; 111; 112; 113; 114; 115; 116; 117; 118; 119; 120; 241; 242; 321; 322; 323; 324; 325; 326];
   [327]; [];
   [19; 55; 66; 67; 68; 69; 70; 71; 72; 73; 74; 75; 76; 77; 78; 79; 80; 81; 82; 83; 84; 85; 86; 87; 88; 89; 90; 91; 92; 93; 94; 95; 96; 97; 98; 99; 100; 101; 102; 103; 104; 105; 106; 107; 108; 109; 110; 111; 112; 113; 114; 115; 116; 117; 118; 119; 120; 139; 156; 157; 158; 159; 160; 161; 162; 163; 164; 165; 166; 167; 168; 169; 170; 171; 172; 186; 187; 188; 189; 190; 191; 192; 193; 194; 195; 196; 197; 198; 328];
   [19; 55; 66; 67; 68; 69; 70; 71; 72; 73; 74; 75; 76; 77; 78; 79; 80; 81; 82; 83; 84; 85; 86; 87; 88; 89; 90; 91; 92; 93; 94; 95; 96; 97; 98; 99; 100; 101; 102; 103; 104; 105; 106; 107; 108; 109; 110; 111; 112; 113; 114; 115; 116; 117; 118; 119; 120; 139; 156; 157; 158; 159; 160; 161; 162; 163; 164; 165; 166; 167; 168; 169; 170; 171; 172; 182; 183; 184; 185; 186; 187; 188; 189; 190; 191; 192; 193; 194; 195; 196; 197; 198; 329];
   []; [];
   [19; 55; 66; 67; 68; 69; 70; 71; 72; 73; 74; 75; 76; 77; 78; 79; 80; 81; 82; 83; 84; 85; 86; 87; 88; 89; 90; 91; 92; 93; 94; 95; 96; 97; 98; 99; 100; 101; 102; 103; 104; 105; 106; 107; 108; 109; 110; 111; 112; 113; 114; 115; 116; 117; 118; 119; 120; 139; 156; 157; 158; 159; 160; 161; 162; 163; 164; 165; 166; 167; 168; 169; 170; 171; 172; 184; 185; 186; 187; 188; 189; 190; 191; 192; 193; 194; 195; 196; 197; 198; 330];
   []; []; []; [331];
   [19; 156; 157; 158; 159; 160; 161; 162; 163; 164; 165; 166; 167; 168; 169; 170; 171; 172; 332; 333; 334; 335; 336];
   [128; 337; 338]; [339; 340; 341; 342]; []; [343; 344]; []; [345]; [];
   [19; 204; 205; 346; 347]; [292; 348]; [19; 205; 349; 350; 351]; []; [127; 128]; []; [352];
   [19; 209; 210; 211; 353]; [4; 48; 241; 242; 325; 326; 354; 355]; []; [19; 214; 356]; [357];
   [358]; []; [19; 204; 205; 220; 221; 359; 360]; [];
   [19; 156; 157; 158; 159; 160; 161; 162; 163; 164; 165; 166; 167; 168; 169; 170; 171; 172; 361];
   [55; 66; 67; 68; 69; 70; 71; 72; 73; 74; 75; 76; 77; 78; 79; 80; 81; 82; 83; 84; 85; 86; 87; 88; 89; 90; 91; 92; 93; 94; 95; 96; 97; 98; 99; 100; 101; 102; 103; 104; 105; 106; 107; 108; 109; 110; 111; 112; 113; 114; 115; 116; 117; 118; 119; 120; 362];
   [127; 128]; []; [127; 128]; []; [363]; []; [127; 128]; []; [127; 128]; []; []; [];
   [48; 364]; []; [365]; []; []; [4; 48; 241; 242; 254; 366; 367]; [368]; []; []; [369]; [];
   []; []; []; [127; 128; 370]; []; [371]; [372]; []; []; []; []; []; [];
   [19; 156; 157; 158; 159; 160; 161; 162; 163; 164; 165; 166; 167; 168; 169; 170; 171; 172; 335; 336; 373];
   []; []; []; []; []; []; []; [19; 374; 375; 376; 377]; []; [19; 278; 378];
   [4; 48; 240; 241; 242; 379; 380]; [282; 381]; []; []; [382]; []; []; [260; 383]; []; [384];
   [385]; []; []; []; [386; 387]; []; []; [127; 128]; []; []; []; [388]; []; [318; 319; 389];
   [];
   [19; 156; 157; 158; 159; 160; 161; 162; 163; 164; 165; 166; 167; 168; 169; 170; 171; 172; 390];
   [];
   [19; 55; 66; 67; 68; 69; 70; 71; 72; 73; 74; 75; 76; 77; 78; 79; 80; 81; 82; 83; 84; 85; 86; 87; 88; 89; 90; 91; 92; 93; 94; 95; 96; 97; 98; 99; 100; 101; 102; 103; 104; 105; 106; 107; 108; 109; 110; 111; 112; 113; 114; 115; 116; 117; 118; 119; 120; 139; 156; 157; 158; 159; 160; 161; 162; 163; 164; 165; 166; 167; 168; 169; 170; 171; 172; 178; 179; 180; 181; 182; 183; 184; 185; 186; 187; 188; 189; 190; 191; 192; 193; 194; 195; 196; 197; 198; 391; 392];
   []; [393]; [394]; [395]; [128; 396; 397; 398]; []; [399]; [400]; [292; 401];
   [19; 205; 351; 402]; [403]; []; []; [404; 405; 406];
   [19; 205; 220; 221; 407; 408; 409; 410; 411]; []; []; []; []; []; []; [19; 376; 377; 412];
   [19; 376; 377; 413]; []; [414; 415; 416; 417]; []; []; []; []; [];
   [19; 209; 210; 211; 418; 419]; []; [420]; [421]; [422]; []; []; []; [423; 424]; [425]; [];
   []; []; []; []; []; []; [19; 205; 219; 220; 221; 426]; [];
   [19; 205; 220; 221; 409; 410; 411; 427]; [19; 205; 219; 220; 221; 428]; [429]; []; [430];
   []; [430; 431]; []; [19; 205; 220; 221; 360]; []].

(** Weight of a stack entry, by state. *)
Definition weight_entry : list Z :=
  [20; 10; 10; 10; 20; 20; 1; 20; 1; 20; 20; 20; 10; 10; 10; 10; 10; 10; 20; 20; 1; 20; 20; 20;
   20; 20; 10; 20; 20; 20; 10; 20; 20; 1; 1; 20; 20; 1; 20; 1; 20; 10; 10; 10; 10; 10; 10; 20;
   20; 10; 10; 10; 10; 10; 10; 20; 1; 10; 10; 10; 20; 20; 20; 10; 20; 10; 10; 10; 10; 10; 10;
   10; 10; 10; 10; 10; 10; 10; 10; 10; 10; 10; 10; 10; 10; 10; 10; 10; 20; 20; 10; 10; 20; 20;
   20; 20; 20; 20; 20; 20; 20; 20; 10; 10; 20; 20; 20; 20; 20; 20; 20; 20; 20; 20; 20; 20; 20;
   20; 20; 20; 20; 20; 10; 20; 10; 10; 20; 10; 20; 20; 20; 20; 20; 20; 20; 20; 20; 10; 10; 20;
   20; 20; 10; 10; 20; 10; 20; 20; 20; 1; 20; 20; 20; 10; 10; 10; 10; 10; 10; 10; 10; 20; 20;
   10; 10; 20; 10; 10; 20; 20; 10; 20; 20; 10; 10; 10; 10; 10; 10; 20; 10; 10; 10; 10; 10; 10;
   10; 20; 10; 10; 10; 10; 10; 10; 10; 10; 20; 10; 20; 20; 10; 10; 10; 10; 20; 10; 10; 10; 10;
   10; 10; 10; 10; 10; 10; 20; 10; 10; 10; 10; 10; 20; 10; 10; 20; 20; 10; 20; 10; 10; 10; 10;
   20; 20; 20; 10; 10; 10; 10; 10; 20; 10; 10; 1; 10; 10; 10; 10; 10; 10; 10; 10; 20; 10; 20;
   20; 20; 20; 10; 1; 20; 20; 10; 20; 10; 20; 20; 10; 20; 20; 10; 10; 20; 20; 20; 20; 10; 10;
   10; 20; 20; 1; 20; 1; 10; 20; 20; 20; 20; 20; 20; 1; 20; 20; 20; 20; 20; 20; 10; 10; 10; 10;
   1; 20; 10; 10; 10; 10; 10; 20; 20; 20; 10; 10; 10; 20; 20; 10; 20; 20; 20; 10; 10; 10; 10;
   20; 20; 20; 10; 10; 10; 20; 10; 10; 20; 10; 20; 10; 10; 10; 10; 10; 20; 20; 20; 20; 10; 10;
   1; 10; 10; 10; 20; 10; 10; 10; 10; 20; 20; 10; 10; 10; 10; 20; 10; 20; 10; 10; 20; 20; 20;
   20; 20; 10; 10; 20; 10; 10; 10; 10; 10; 1; 20; 1; 20; 20; 1; 20; 20; 10; 10; 10; 10; 20; 20;
   20; 1; 1; 10; 20; 20; 1; 10; 20; 1; 10; 20; 10; 10; 10; 10; 20; 10; 10; 1; 20; 20; 20; 10;
   10; 20; 20; 20; 1; 20; 20; 10; 10; 10; 20; 20; 20].

(** Weight of the top of the stack, by state. *)
Definition weight_top : list Z :=
  [0; 0; 0; 2; 0; 4; 0; 0; 2; 0; 0; 0; 0; 1; 2; 2; 2; 3; 0; 7; 0; 0; 0; 0; 0; 0; 0; 0; 0; 0; 0;
   4; 0; 0; 2; 2; 0; 0; 2; 0; 0; 0; 1; 2; 3; 3; 3; 7; 0; 0; 1; 2; 2; 0; 0; 7; 0; 0; 1; 0; 0; 0;
   0; 0; 0; 0; 14; 14; 14; 15; 15; 15; 15; 15; 15; 15; 15; 15; 15; 15; 15; 15; 15; 15; 15; 15;
   15; 15; 0; 6; 16; 16; 0; 0; 6; 6; 0; 0; 6; 0; 0; 6; 0; 16; 6; 6; 7; 7; 7; 7; 7; 7; 7; 7; 7;
   7; 7; 7; 7; 0; 2; 0; 0; 0; 0; 0; 0; 5; 0; 0; 0; 0; 0; 0; 0; 0; 0; 0; 0; 0; 0; 0; 0; 0; 0; 6;
   0; 0; 0; 0; 0; 0; 0; 0; 2; 0; 14; 15; 15; 15; 15; 6; 6; 16; 16; 0; 16; 16; 7; 0; 17; 7; 7;
   2; 3; 4; 5; 6; 7; 0; 8; 0; 9; 0; 10; 0; 11; 0; 12; 12; 12; 12; 12; 13; 0; 13; 0; 1; 0; 0; 0;
   1; 4; 2; 0; 0; 0; 1; 2; 3; 4; 4; 0; 1; 0; 0; 2; 0; 1; 2; 3; 0; 0; 0; 0; 0; 0; 0; 2; 0; 0; 0;
   0; 0; 0; 0; 0; 0; 1; 1; 0; 0; 3; 0; 0; 0; 0; 2; 1; 2; 2; 2; 0; 3; 0; 0; 0; 0; 0; 0; 0; 0; 0;
   0; 0; 0; 0; 0; 0; 0; 0; 0; 0; 0; 0; 0; 0; 1; 0; 0; 0; 2; 0; 0; 0; 0; 0; 0; 0; 0; 0; 0; 0; 0;
   0; 0; 0; 0; 0; 0; 0; 0; 0; 0; 0; 0; 0; 0; 0; 0; 0; 0; 0; 2; 0; 0; 0; 0; 0; 0; 0; 0; 1; 1; 0;
   0; 0; 0; 0; 1; 0; 0; 0; 1; 0; 2; 0; 0; 1; 0; 1; 1; 0; 0; 0; 0; 4; 0; 0; 0; 1; 2; 2; 0; 0; 0;
   0; 0; 0; 4; 0; 0; 0; 0; 0; 0; 0; 1; 0; 0; 0; 0; 0; 0; 0; 0; 1; 5; 0; 0; 0; 2; 0; 0; 0; 0; 2;
   0; 0; 0; 0; 0; 1; 0; 0; 0; 1; 3; 0; 0; 0; 0; 0; 0; 0; 0; 0; 0; 1; 2; 2; 2; 0; 0; 1; 0; 0; 0;
   0; 1; 0; 0; 0; 0; 0; 0; 0; 0; 0; 0; 0; 0].

(** The nonterminal of a number of yyR1. *)
Definition nonterms : list (option nonterm) :=
  [None; Some N_realnumber; Some N_SignedExponent; Some N_modulereference;
   Some N_typereference; Some N_identifier; Some N_ExtensionDefault; Some N_TagDefault;
   Some N_ModuleIdentifier; Some N_DefinitiveObjIdComponent; Some N_DefinitiveNumberForm;
   Some N_DefinitiveObjIdComponentList; Some N_DefinitiveNameAndNumberForm;
   Some N_DefinitiveIdentifier; Some N_NameForm; Some N_DefinedValue;
   Some N_ObjectIdentifierType; Some N_IntegerType; Some N_BooleanType; Some N_BuiltinType;
   Some N_Type; Some N_NullType; Some N_EnumeratedType; Some N_AnyType; Some N_NamedType;
   Some N_NumberForm; Some N_NameAndNumberForm; Some N_ObjIdComponents;
   Some N_ObjIdComponentsList; Some N_ObjectIdentifierValue; Some N_BuiltinValue; Some N_Value;
   Some N_IntegerValue; Some N_RealType; Some N_RealValue; Some N_BooleanValue;
   Some N_NumericRealValue; Some N_SpecialRealValue; Some N_SignedNumber; Some N_number;
   Some N_Assignment; Some N_ValueAssignment; Some N_TypeAssignment; Some N_AssignmentList;
   Some N_ModuleBody; Some N_valuereference; Some N_ConstrainedType; Some N_TypeWithConstraint;
   Some N_Constraint; Some N_ConstraintSpec; Some N_SubtypeConstraint; Some N_ElementSetSpecs;
   Some N_RootElementSetSpec; Some N_AdditionalElementSetSpec; Some N_ElementSetSpec;
   Some N_Unions; Some N_UElems; Some N_Intersections; Some N_IElems;
   Some N_IntersectionElements; Some N_Exclusions; Some N_Elements; Some N_Elems;
   Some N_SingleValue; Some N_ValueRange; Some N_SubtypeElements; Some N_TypeConstraint;
   Some N_InnerTypeConstraints; Some N_SizeConstraint; Some N_LowerEndpoint;
   Some N_UpperEndpoint; Some N_LowerEndValue; Some N_UpperEndValue;
   Some N_CharacterStringType; Some N_RestrictedCharacterStringType;
   Some N_UnrestrictedCharacterStringType; Some N_DefinedType; Some N_ReferencedType;
   Some N_SequenceType; Some N_SequenceOfType; Some N_SetType; Some N_SetOfType;
   Some N_ComponentType; Some N_ComponentTypeList; Some N_RootComponentTypeList;
   Some N_ComponentTypeLists; Some N_TaggedType; Some N_Tag; Some N_ClassNumber; Some N_Class;
   Some N_UsefulType; Some N_OctetStringType; Some N_BitStringType; Some N_NamedBitList;
   Some N_NamedBit; Some N_Imports; Some N_SymbolsImported; Some N_SymbolsFromModuleList;
   Some N_SymbolsFromModule; Some N_SymbolList; Some N_Symbol; Some N_Reference;
   Some N_AssignedIdentifier; Some N_GlobalModuleReference; Some N_ChoiceType;
   Some N_AlternativeTypeLists; Some N_AlternativeTypeList; Some N_RootAlternativeTypeList;
   Some N_ExtensionAdditionAlternative; Some N_ExtensionAdditionAlternatives;
   Some N_ExtensionAdditionAlternativesList; Some N_ExtensionAdditions;
   Some N_ExtensionAdditionList; Some N_ExtensionAddition; Some N_NamedNumber;
   Some N_NamedNumberList; Some N_Enumerations; Some N_Enumeration; Some N_RootEnumeration;
   Some N_AdditionalEnumeration; Some N_EnumerationItem; Some N_ModuleDefinition;
   Some N_Exports; Some N_SymbolsExported; Some N_ExceptionSpec; Some N_ExtensionAndException;
   Some N_OptionalExtensionMarker; Some N_ExtensionEndMarker; Some N_ExtensionAdditionGroup;
   Some N_VersionNumber; Some N_ExtensionAdditionAlternativesGroup; Some N_UnionMark;
   Some N_IntersectionMark; Some N_SingleTypeConstraint; Some N_MultipleTypeConstraints;
   Some N_FullSpecification; Some N_PartialSpecification; Some N_TypeConstraints;
   Some N_NamedConstraint; Some N_ComponentConstraint; Some N_ValueConstraint;
   Some N_PresenceConstraint; Some N_ExceptionIdentification].

(** The number of a nonterminal. *)
Definition nt_number (N : nonterm) : Z :=
  match N with
  | N_realnumber => 1
  | N_SignedExponent => 2
  | N_modulereference => 3
  | N_typereference => 4
  | N_identifier => 5
  | N_ExtensionDefault => 6
  | N_TagDefault => 7
  | N_ModuleIdentifier => 8
  | N_DefinitiveObjIdComponent => 9
  | N_DefinitiveNumberForm => 10
  | N_DefinitiveObjIdComponentList => 11
  | N_DefinitiveNameAndNumberForm => 12
  | N_DefinitiveIdentifier => 13
  | N_NameForm => 14
  | N_DefinedValue => 15
  | N_ObjectIdentifierType => 16
  | N_IntegerType => 17
  | N_BooleanType => 18
  | N_BuiltinType => 19
  | N_Type => 20
  | N_NullType => 21
  | N_EnumeratedType => 22
  | N_AnyType => 23
  | N_NamedType => 24
  | N_NumberForm => 25
  | N_NameAndNumberForm => 26
  | N_ObjIdComponents => 27
  | N_ObjIdComponentsList => 28
  | N_ObjectIdentifierValue => 29
  | N_BuiltinValue => 30
  | N_Value => 31
  | N_IntegerValue => 32
  | N_RealType => 33
  | N_RealValue => 34
  | N_BooleanValue => 35
  | N_NumericRealValue => 36
  | N_SpecialRealValue => 37
  | N_SignedNumber => 38
  | N_number => 39
  | N_Assignment => 40
  | N_ValueAssignment => 41
  | N_TypeAssignment => 42
  | N_AssignmentList => 43
  | N_ModuleBody => 44
  | N_valuereference => 45
  | N_ConstrainedType => 46
  | N_TypeWithConstraint => 47
  | N_Constraint => 48
  | N_ConstraintSpec => 49
  | N_SubtypeConstraint => 50
  | N_ElementSetSpecs => 51
  | N_RootElementSetSpec => 52
  | N_AdditionalElementSetSpec => 53
  | N_ElementSetSpec => 54
  | N_Unions => 55
  | N_UElems => 56
  | N_Intersections => 57
  | N_IElems => 58
  | N_IntersectionElements => 59
  | N_Exclusions => 60
  | N_Elements => 61
  | N_Elems => 62
  | N_SingleValue => 63
  | N_ValueRange => 64
  | N_SubtypeElements => 65
  | N_TypeConstraint => 66
  | N_InnerTypeConstraints => 67
  | N_SizeConstraint => 68
  | N_LowerEndpoint => 69
  | N_UpperEndpoint => 70
  | N_LowerEndValue => 71
  | N_UpperEndValue => 72
  | N_CharacterStringType => 73
  | N_RestrictedCharacterStringType => 74
  | N_UnrestrictedCharacterStringType => 75
  | N_DefinedType => 76
  | N_ReferencedType => 77
  | N_SequenceType => 78
  | N_SequenceOfType => 79
  | N_SetType => 80
  | N_SetOfType => 81
  | N_ComponentType => 82
  | N_ComponentTypeList => 83
  | N_RootComponentTypeList => 84
  | N_ComponentTypeLists => 85
  | N_TaggedType => 86
  | N_Tag => 87
  | N_ClassNumber => 88
  | N_Class => 89
  | N_UsefulType => 90
  | N_OctetStringType => 91
  | N_BitStringType => 92
  | N_NamedBitList => 93
  | N_NamedBit => 94
  | N_Imports => 95
  | N_SymbolsImported => 96
  | N_SymbolsFromModuleList => 97
  | N_SymbolsFromModule => 98
  | N_SymbolList => 99
  | N_Symbol => 100
  | N_Reference => 101
  | N_AssignedIdentifier => 102
  | N_GlobalModuleReference => 103
  | N_ChoiceType => 104
  | N_AlternativeTypeLists => 105
  | N_AlternativeTypeList => 106
  | N_RootAlternativeTypeList => 107
  | N_ExtensionAdditionAlternative => 108
  | N_ExtensionAdditionAlternatives => 109
  | N_ExtensionAdditionAlternativesList => 110
  | N_ExtensionAdditions => 111
  | N_ExtensionAdditionList => 112
  | N_ExtensionAddition => 113
  | N_NamedNumber => 114
  | N_NamedNumberList => 115
  | N_Enumerations => 116
  | N_Enumeration => 117
  | N_RootEnumeration => 118
  | N_AdditionalEnumeration => 119
  | N_EnumerationItem => 120
  | N_ModuleDefinition => 121
  | N_Exports => 122
  | N_SymbolsExported => 123
  | N_ExceptionSpec => 124
  | N_ExtensionAndException => 125
  | N_OptionalExtensionMarker => 126
  | N_ExtensionEndMarker => 127
  | N_ExtensionAdditionGroup => 128
  | N_VersionNumber => 129
  | N_ExtensionAdditionAlternativesGroup => 130
  | N_UnionMark => 131
  | N_IntersectionMark => 132
  | N_SingleTypeConstraint => 133
  | N_MultipleTypeConstraints => 134
  | N_FullSpecification => 135
  | N_PartialSpecification => 136
  | N_TypeConstraints => 137
  | N_NamedConstraint => 138
  | N_ComponentConstraint => 139
  | N_ValueConstraint => 140
  | N_PresenceConstraint => 141
  | N_ExceptionIdentification => 142
  end.
