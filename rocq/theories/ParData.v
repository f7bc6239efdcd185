(* GENERATED by tools/gen_par.py; do not edit.
   For each sector with mirror images: for each coefficient the position of its mirror image in the list of the
   coefficients of the sector, and whether it is conjugated.  Only a certificate: ParProofs.v checks it. *)
From Coq Require Import List String.
Import ListNotations.
Local Open Scope string_scope.

Definition par_data : list (string * list (nat * bool)) := [
  ("sbsb", [(1, true); (0, true); (3, true); (2, true); (4, false); (5, false); (7, false); (6, false)]);
  ("dbdb", [(1, true); (0, true); (3, true); (2, true); (4, false); (5, false); (7, false); (6, false)]);
  ("sdsd", [(1, true); (0, true); (3, true); (2, true); (4, false); (5, false); (7, false); (6, false)]);
  ("cucu", [(1, true); (0, true); (3, true); (2, true); (4, false); (5, false); (7, false); (6, false)]);
  ("dbsb", [(1, true); (0, true); (3, true); (2, true); (5, false); (4, false); (7, false); (6, false); (9, false); (8, false)]);
  ("sbuc", [(1, true); (0, true); (3, true); (2, true); (5, true); (4, true); (7, true); (6, true); (10, false); (11, false); (8, false); (9, false); (13, true); (12, true); (16, false); (17, false); (14, false); (15, false); (19, true); (18, true)]);
  ("sbcu", [(1, true); (0, true); (3, true); (2, true); (5, true); (4, true); (7, true); (6, true); (10, true); (11, false); (8, true); (9, false); (13, true); (12, true); (16, true); (17, false); (14, true); (15, false); (19, true); (18, true)]);
  ("dbuc", [(1, true); (0, true); (3, true); (2, true); (5, true); (4, true); (7, true); (6, true); (10, false); (11, false); (8, false); (9, false); (13, true); (12, true); (16, false); (17, false); (14, false); (15, false); (19, true); (18, true)]);
  ("dbcu", [(1, true); (0, true); (3, true); (2, true); (5, true); (4, true); (7, true); (6, true); (10, true); (11, false); (8, true); (9, false); (13, true); (12, true); (16, true); (17, false); (14, true); (15, false); (19, true); (18, true)]);
  ("sduc", [(1, true); (0, true); (3, true); (2, true); (5, true); (4, true); (7, true); (6, true); (10, true); (11, false); (8, true); (9, false); (13, true); (12, true); (16, true); (17, false); (14, true); (15, false); (19, true); (18, true)]);
  ("sdcu", [(1, true); (0, true); (3, true); (2, true); (5, true); (4, true); (7, true); (6, true); (10, false); (11, false); (8, false); (9, false); (13, true); (12, true); (16, false); (17, false); (14, false); (15, false); (19, true); (18, true)]);
  ("sbsd", [(1, true); (0, true); (3, true); (2, true); (5, true); (4, true); (7, true); (6, true); (9, false); (8, false)]);
  ("dbds", [(1, true); (0, true); (3, true); (2, true); (5, false); (4, false); (7, false); (6, false); (9, false); (8, false)]);
  ("sb", [(1, true); (0, true); (3, true); (2, true); (5, true); (4, true); (7, true); (6, true); (9, true); (8, true); (11, true); (10, true); (13, true); (12, true); (15, true); (14, true); (17, true); (16, true); (19, true); (18, true); (21, true); (20, true); (23, true); (22, true); (25, true); (24, true); (27, true); (26, true); (29, true); (28, true); (31, true); (30, true); (33, true); (32, true); (35, true); (34, true); (37, true); (36, true); (39, true); (38, true); (41, true); (40, true); (43, true); (42, true); (45, true); (44, true); (47, true); (46, true); (49, true); (48, true); (54, false); (52, true); (51, true); (55, false); (50, false); (53, false); (57, false); (56, false); (62, false); (63, false); (64, false); (65, false); (58, false); (59, false); (60, false); (61, false); (67, true); (66, true); (69, true); (68, true); (74, false); (72, true); (71, true); (75, false); (70, false); (73, false); (77, false); (76, false); (82, false); (83, false); (84, false); (85, false); (78, false); (79, false); (80, false); (81, false); (87, true); (86, true); (89, true); (88, true); (94, false); (95, false); (96, false); (97, false); (90, false); (91, false); (92, false); (93, false); (104, false); (105, false); (106, false); (107, false); (108, false); (109, false); (98, false); (99, false); (100, false); (101, false); (102, false); (103, false); (111, true); (110, true); (113, true); (112, true)]);
  ("db", [(1, true); (0, true); (5, true); (6, true); (7, true); (2, true); (3, true); (4, true); (9, true); (8, true); (11, true); (10, true); (13, true); (12, true); (15, true); (14, true); (17, true); (16, true); (21, true); (22, true); (23, true); (18, true); (19, true); (20, true); (25, true); (24, true); (27, true); (26, true); (29, true); (28, true); (31, true); (30, true); (33, true); (32, true); (35, true); (34, true); (37, true); (36, true); (39, true); (38, true); (41, true); (40, true); (43, true); (42, true); (45, true); (44, true); (47, true); (46, true); (49, true); (48, true); (52, false); (56, false); (50, false); (55, false); (57, false); (53, false); (51, false); (54, false); (62, false); (63, false); (64, false); (65, false); (58, false); (59, false); (60, false); (61, false); (67, true); (66, true); (69, true); (68, true); (72, false); (76, false); (70, false); (75, false); (77, false); (73, false); (71, false); (74, false); (82, false); (83, false); (84, false); (85, false); (78, false); (79, false); (80, false); (81, false); (87, true); (86, true); (89, true); (88, true); (94, false); (95, false); (96, false); (97, false); (90, false); (91, false); (92, false); (93, false); (104, false); (105, false); (106, false); (107, false); (108, false); (109, false); (98, false); (99, false); (100, false); (101, false); (102, false); (103, false); (111, true); (110, true); (113, true); (112, true)]);
  ("sd", [(1, true); (0, true); (5, true); (6, true); (7, true); (2, true); (3, true); (4, true); (9, true); (8, true); (11, true); (10, true); (13, true); (12, true); (15, true); (14, true); (17, true); (16, true); (21, true); (22, true); (23, true); (18, true); (19, true); (20, true); (25, true); (24, true); (27, true); (26, true); (29, true); (28, true); (31, true); (30, true); (33, true); (32, true); (35, true); (34, true); (37, true); (36, true); (39, true); (38, true); (41, true); (40, true); (43, true); (42, true); (45, true); (44, true); (47, true); (46, true); (49, true); (48, true); (51, false); (50, false); (55, false); (57, false); (56, true); (52, false); (54, true); (53, false); (62, false); (63, false); (64, false); (65, false); (58, false); (59, false); (60, false); (61, false); (67, true); (66, true); (69, true); (68, true); (71, false); (70, false); (75, false); (77, false); (76, true); (72, false); (74, true); (73, false); (82, false); (83, false); (84, false); (85, false); (78, false); (79, false); (80, false); (81, false); (87, true); (86, true); (89, true); (88, true); (94, false); (95, false); (96, false); (97, false); (90, false); (91, false); (92, false); (93, false); (104, false); (105, false); (106, false); (107, false); (108, false); (109, false); (98, false); (99, false); (100, false); (101, false); (102, false); (103, false); (111, true); (110, true); (113, true); (112, true)]);
  ("cu", [(3, true); (4, true); (5, true); (0, true); (1, true); (2, true); (9, true); (10, true); (11, true); (6, true); (7, true); (8, true); (13, true); (12, true); (15, true); (14, true); (19, true); (20, true); (21, true); (16, true); (17, true); (18, true); (25, true); (26, true); (27, true); (22, true); (23, true); (24, true); (29, true); (28, true); (31, true); (30, true); (33, true); (32, true); (35, true); (34, true); (37, true); (36, true); (39, true); (38, true); (41, true); (40, true); (43, true); (42, true); (45, true); (44, true); (47, true); (46, true); (49, true); (48, true); (56, false); (57, false); (58, false); (59, false); (60, false); (61, false); (50, false); (51, false); (52, false); (53, false); (54, false); (55, false); (65, true); (66, true); (67, true); (62, true); (63, true); (64, true); (69, false); (68, false); (71, false); (70, false); (78, false); (79, false); (80, false); (81, false); (82, false); (83, false); (72, false); (73, false); (74, false); (75, false); (76, false); (77, false); (87, true); (88, true); (89, true); (84, true); (85, true); (86, true); (91, false); (90, false); (93, false); (92, false); (100, false); (101, false); (102, false); (103, false); (104, false); (105, false); (94, false); (95, false); (96, false); (97, false); (98, false); (99, false); (108, false); (109, false); (106, false); (107, false); (111, true); (110, true); (113, true); (112, true)]);
  ("sbemu", [(1, true); (0, true); (3, true); (2, true); (5, true); (4, true); (8, false); (9, false); (6, false); (7, false)]);
  ("sbmue", [(1, true); (0, true); (3, true); (2, true); (5, true); (4, true); (8, true); (9, false); (6, true); (7, false)]);
  ("sbetau", [(1, true); (0, true); (3, true); (2, true); (5, true); (4, true); (8, false); (9, false); (6, false); (7, false)]);
  ("sbtaue", [(1, true); (0, true); (3, true); (2, true); (5, true); (4, true); (8, true); (9, false); (6, true); (7, false)]);
  ("sbmutau", [(1, true); (0, true); (3, true); (2, true); (5, true); (4, true); (8, false); (9, false); (6, false); (7, false)]);
  ("sbtaumu", [(1, true); (0, true); (3, true); (2, true); (5, true); (4, true); (8, true); (9, false); (6, true); (7, false)]);
  ("dbemu", [(1, true); (0, true); (3, true); (2, true); (5, true); (4, true); (8, false); (9, false); (6, false); (7, false)]);
  ("dbmue", [(1, true); (0, true); (3, true); (2, true); (5, true); (4, true); (8, true); (9, false); (6, true); (7, false)]);
  ("dbetau", [(1, true); (0, true); (3, true); (2, true); (5, true); (4, true); (8, false); (9, false); (6, false); (7, false)]);
  ("dbtaue", [(1, true); (0, true); (3, true); (2, true); (5, true); (4, true); (8, true); (9, false); (6, true); (7, false)]);
  ("dbmutau", [(1, true); (0, true); (3, true); (2, true); (5, true); (4, true); (8, false); (9, false); (6, false); (7, false)]);
  ("dbtaumu", [(1, true); (0, true); (3, true); (2, true); (5, true); (4, true); (8, true); (9, false); (6, true); (7, false)]);
  ("sdemu", [(1, true); (0, true); (3, true); (2, true); (5, true); (4, true); (8, true); (9, false); (6, true); (7, false)]);
  ("sdmue", [(1, true); (0, true); (3, true); (2, true); (5, true); (4, true); (8, false); (9, false); (6, false); (7, false)]);
  ("sdetau", [(1, true); (0, true); (3, true); (2, true); (5, true); (4, true); (8, true); (9, false); (6, true); (7, false)]);
  ("sdtaue", [(1, true); (0, true); (3, true); (2, true); (5, true); (4, true); (8, false); (9, false); (6, false); (7, false)]);
  ("sdmutau", [(1, true); (0, true); (3, true); (2, true); (5, true); (4, true); (8, true); (9, false); (6, true); (7, false)]);
  ("sdtaumu", [(1, true); (0, true); (3, true); (2, true); (5, true); (4, true); (8, false); (9, false); (6, false); (7, false)]);
  ("cuemu", [(1, true); (0, true); (3, true); (2, true); (5, true); (4, true); (8, false); (9, true); (6, false); (7, true)]);
  ("cumue", [(1, true); (0, true); (3, true); (2, true); (5, true); (4, true); (8, false); (9, false); (6, false); (7, false)]);
  ("cuetau", [(1, true); (0, true); (3, true); (2, true); (5, true); (4, true); (8, false); (9, true); (6, false); (7, true)]);
  ("cutaue", [(1, true); (0, true); (3, true); (2, true); (5, true); (4, true); (8, false); (9, false); (6, false); (7, false)]);
  ("cumutau", [(1, true); (0, true); (3, true); (2, true); (5, true); (4, true); (8, false); (9, true); (6, false); (7, true)]);
  ("cutaumu", [(1, true); (0, true); (3, true); (2, true); (5, true); (4, true); (8, false); (9, false); (6, false); (7, false)]);
  ("mutau", [(3, true); (4, true); (5, true); (0, true); (1, true); (2, true); (9, true); (10, true); (11, true); (6, true); (7, true); (8, true); (13, true); (12, true); (15, true); (14, true); (17, true); (16, true); (19, true); (18, true); (22, true); (23, true); (20, true); (21, true); (26, true); (27, true); (24, true); (25, true); (31, true); (32, true); (33, true); (28, true); (29, true); (30, true); (36, true); (37, true); (34, true); (35, true); (44, false); (45, false); (46, false); (47, false); (48, false); (49, false); (38, false); (39, false); (40, false); (41, false); (42, false); (43, false); (61, false); (62, false); (63, false); (57, false); (55, true); (54, true); (58, false); (53, false); (56, false); (60, false); (59, false); (50, false); (51, false); (52, false); (68, false); (69, false); (70, false); (71, false); (64, false); (65, false); (66, false); (67, false); (73, true); (72, true)]);
  ("mue", [(3, true); (4, true); (5, true); (0, true); (1, true); (2, true); (9, true); (10, true); (11, true); (6, true); (7, true); (8, true); (13, true); (12, true); (17, true); (18, true); (19, true); (14, true); (15, true); (16, true); (22, true); (23, true); (20, true); (21, true); (26, true); (27, true); (24, true); (25, true); (31, true); (32, true); (33, true); (28, true); (29, true); (30, true); (36, true); (37, true); (34, true); (35, true); (44, false); (45, false); (46, false); (47, false); (48, false); (49, false); (38, false); (39, false); (40, false); (41, false); (42, false); (43, false); (61, false); (62, false); (63, false); (54, false); (53, false); (58, false); (60, false); (59, true); (55, false); (57, true); (56, false); (50, false); (51, false); (52, false); (68, false); (69, false); (70, false); (71, false); (64, false); (65, false); (66, false); (67, false); (73, true); (72, true)]);
  ("taue", [(3, true); (4, true); (5, true); (0, true); (1, true); (2, true); (9, true); (10, true); (11, true); (6, true); (7, true); (8, true); (13, true); (12, true); (17, true); (18, true); (19, true); (14, true); (15, true); (16, true); (22, true); (23, true); (20, true); (21, true); (26, true); (27, true); (24, true); (25, true); (31, true); (32, true); (33, true); (28, true); (29, true); (30, true); (36, true); (37, true); (34, true); (35, true); (44, false); (45, false); (46, false); (47, false); (48, false); (49, false); (38, false); (39, false); (40, false); (41, false); (42, false); (43, false); (61, false); (62, false); (63, false); (55, false); (59, false); (53, false); (58, false); (60, false); (56, false); (54, false); (57, false); (50, false); (51, false); (52, false); (68, false); (69, false); (70, false); (71, false); (64, false); (65, false); (66, false); (67, false); (73, true); (72, true)]);
  ("tauetaue", [(1, true); (0, true); (4, false); (3, false); (2, false)]);
  ("taumutaumu", [(1, true); (0, true); (4, false); (3, false); (2, false)]);
  ("muemue", [(1, true); (0, true); (4, false); (3, false); (2, false)]);
  ("muemutau", [(1, true); (0, true); (5, false); (4, true); (3, true); (2, false)]);
  ("etauemu", [(1, true); (0, true); (5, false); (4, false); (3, false); (2, false)]);
  ("tauetaumu", [(1, true); (0, true); (5, false); (4, false); (3, false); (2, false)]);
  ("nunununu", [(0, false); (1, false); (2, false); (3, false); (4, false); (5, false); (6, false); (7, false); (8, false); (9, false); (10, false); (11, false); (12, false); (13, false); (14, false); (15, false); (16, false); (17, false); (18, false); (19, false); (20, false)]);
  ("nunumue", [(9, false); (10, false); (11, false); (12, false); (13, false); (14, false); (15, false); (16, false); (17, false); (0, false); (1, false); (2, false); (3, false); (4, false); (5, false); (6, false); (7, false); (8, false)]);
  ("nunumutau", [(9, false); (10, false); (11, false); (12, false); (13, false); (14, false); (15, false); (16, false); (17, false); (0, false); (1, false); (2, false); (3, false); (4, false); (5, false); (6, false); (7, false); (8, false)]);
  ("nunutaue", [(9, false); (10, false); (11, false); (12, false); (13, false); (14, false); (15, false); (16, false); (17, false); (0, false); (1, false); (2, false); (3, false); (4, false); (5, false); (6, false); (7, false); (8, false)]);
  ("dF=0", [(0, true); (1, true); (2, true); (3, true); (4, true); (5, true); (6, true); (7, true); (8, true); (9, true); (10, true); (11, true); (12, true); (13, true); (14, true); (15, true); (16, true); (17, true); (18, true); (19, true); (20, true); (21, true); (22, true); (23, true); (24, true); (25, true); (26, true); (27, true); (28, true); (29, true); (30, true); (31, true); (32, true); (33, true); (34, true); (35, true); (36, true); (37, true); (38, true); (39, true); (40, true); (41, true); (42, true); (43, true); (44, true); (45, true); (46, true); (47, true); (48, true); (49, true); (50, true); (51, true); (52, true); (53, true); (54, true); (55, true); (56, true); (57, true); (58, true); (59, true); (60, true); (61, true); (62, true); (63, true); (64, true); (65, true); (66, true); (67, true); (68, true); (69, true); (70, true); (71, true); (72, true); (73, true); (74, true); (75, true); (76, true); (77, true); (78, true); (79, true); (80, true); (81, true); (82, true); (83, true); (84, true); (85, true); (86, true); (87, true); (88, true); (89, true); (90, true); (91, true); (92, true); (93, true); (94, true); (95, true); (96, true); (97, true); (98, true); (99, true); (100, true); (101, true); (102, true); (103, true); (104, true); (105, true); (106, false); (111, false); (115, false); (109, true); (110, true); (107, false); (112, false); (116, false); (114, true); (108, false); (113, false); (117, false); (130, false); (133, false); (131, false); (134, false); (132, false); (135, false); (136, false); (137, false); (138, false); (139, false); (140, false); (141, false); (118, false); (120, false); (122, false); (119, false); (121, false); (123, false); (124, false); (125, false); (126, false); (127, false); (128, false); (129, false); (142, true); (143, true); (144, true); (145, true); (146, true); (147, true); (148, false); (151, false); (150, true); (149, false); (152, false); (153, false); (158, false); (162, false); (156, true); (157, true); (154, false); (159, false); (163, false); (161, true); (155, false); (160, false); (164, false); (177, false); (180, false); (178, false); (181, false); (179, false); (182, false); (183, false); (184, false); (185, false); (186, false); (187, false); (188, false); (165, false); (167, false); (169, false); (166, false); (168, false); (170, false); (171, false); (172, false); (173, false); (174, false); (175, false); (176, false); (189, true); (190, true); (191, true); (192, true); (193, true); (194, true); (195, false); (198, false); (197, true); (196, false); (199, false); (209, false); (210, false); (211, false); (212, false); (213, false); (214, false); (215, false); (216, false); (217, false); (200, false); (201, false); (202, false); (203, false); (204, false); (205, false); (206, false); (207, false); (208, false); (236, false); (239, false); (242, false); (237, false); (240, false); (243, false); (238, false); (241, false); (244, false); (245, false); (246, false); (247, false); (248, false); (249, false); (250, false); (251, false); (252, false); (253, false); (218, false); (221, false); (224, false); (219, false); (222, false); (225, false); (220, false); (223, false); (226, false); (227, false); (228, false); (229, false); (230, false); (231, false); (232, false); (233, false); (234, false); (235, false); (272, false); (273, false); (274, false); (275, false); (276, false); (277, false); (260, false); (265, false); (269, false); (263, true); (264, true); (261, false); (266, false); (270, false); (268, true); (262, false); (267, false); (271, false); (254, false); (255, false); (256, false); (257, false); (258, false); (259, false); (290, false); (291, false); (292, false); (293, false); (294, false); (295, false); (296, false); (299, false); (297, false); (300, false); (298, false); (301, false); (278, false); (279, false); (280, false); (281, false); (282, false); (283, false); (284, false); (286, false); (288, false); (285, false); (287, false); (289, false); (306, false); (307, false); (308, false); (309, false); (302, false); (303, false); (304, false); (305, false); (310, true); (311, true); (312, true); (313, true); (314, true); (315, true); (316, true); (317, true); (318, true); (319, true); (320, true); (321, true); (322, true)]);
  ("sbnunu", [(9, false); (10, false); (11, false); (12, false); (13, false); (14, false); (15, false); (16, false); (17, false); (0, false); (1, false); (2, false); (3, false); (4, false); (5, false); (6, false); (7, false); (8, false)]);
  ("dbnunu", [(9, false); (10, false); (11, false); (12, false); (13, false); (14, false); (15, false); (16, false); (17, false); (0, false); (1, false); (2, false); (3, false); (4, false); (5, false); (6, false); (7, false); (8, false)]);
  ("sdnunu", [(9, false); (10, false); (11, false); (12, false); (13, false); (14, false); (15, false); (16, false); (17, false); (0, false); (1, false); (2, false); (3, false); (4, false); (5, false); (6, false); (7, false); (8, false)]);
  ("cununu", [(9, false); (10, false); (11, false); (12, false); (13, false); (14, false); (15, false); (16, false); (17, false); (0, false); (1, false); (2, false); (3, false); (4, false); (5, false); (6, false); (7, false); (8, false)]);
  ("ffnunu", [(18, false); (19, false); (20, false); (21, false); (22, false); (23, false); (24, false); (25, false); (26, false); (27, false); (28, false); (29, false); (30, false); (31, false); (32, false); (33, false); (34, false); (35, false); (0, false); (1, false); (2, false); (3, false); (4, false); (5, false); (6, false); (7, false); (8, false); (9, false); (10, false); (11, false); (12, false); (13, false); (14, false); (15, false); (16, false); (17, false); (54, false); (55, false); (56, false); (57, false); (58, false); (59, false); (60, false); (61, false); (62, false); (63, false); (64, false); (65, false); (66, false); (67, false); (68, false); (69, false); (70, false); (71, false); (36, false); (37, false); (38, false); (39, false); (40, false); (41, false); (42, false); (43, false); (44, false); (45, false); (46, false); (47, false); (48, false); (49, false); (50, false); (51, false); (52, false); (53, false); (84, false); (85, false); (86, false); (87, false); (88, false); (89, false); (90, false); (91, false); (92, false); (93, false); (94, false); (95, false); (72, false); (73, false); (74, false); (75, false); (76, false); (77, false); (78, false); (79, false); (80, false); (81, false); (82, false); (83, false)]);
  ("uude", [(3, false); (2, false); (1, false); (0, false)]);
  ("uudmu", [(3, false); (2, false); (1, false); (0, false)]);
  ("uudtau", [(3, false); (2, false); (1, false); (0, false)]);
  ("ucde", [(6, false); (7, false); (4, false); (5, false); (2, false); (3, false); (0, false); (1, false); (9, false); (8, false)]);
  ("ucdmu", [(6, false); (7, false); (4, false); (5, false); (2, false); (3, false); (0, false); (1, false); (9, false); (8, false)]);
  ("ucdtau", [(6, false); (7, false); (4, false); (5, false); (2, false); (3, false); (0, false); (1, false); (9, false); (8, false)]);
  ("ccde", [(3, false); (2, false); (1, false); (0, false)]);
  ("ccdmu", [(3, false); (2, false); (1, false); (0, false)]);
  ("ccdtau", [(3, false); (2, false); (1, false); (0, false)]);
  ("uuse", [(3, false); (2, false); (1, false); (0, false)]);
  ("uusmu", [(3, false); (2, false); (1, false); (0, false)]);
  ("uustau", [(3, false); (2, false); (1, false); (0, false)]);
  ("ucse", [(6, false); (7, false); (4, false); (5, false); (2, false); (3, false); (0, false); (1, false); (9, false); (8, false)]);
  ("ucsmu", [(6, false); (7, false); (4, false); (5, false); (2, false); (3, false); (0, false); (1, false); (9, false); (8, false)]);
  ("ucstau", [(6, false); (7, false); (4, false); (5, false); (2, false); (3, false); (0, false); (1, false); (9, false); (8, false)]);
  ("ccse", [(3, false); (2, false); (1, false); (0, false)]);
  ("ccsmu", [(3, false); (2, false); (1, false); (0, false)]);
  ("ccstau", [(3, false); (2, false); (1, false); (0, false)]);
  ("uube", [(3, false); (2, false); (1, false); (0, false)]);
  ("uubmu", [(3, false); (2, false); (1, false); (0, false)]);
  ("uubtau", [(3, false); (2, false); (1, false); (0, false)]);
  ("ucbe", [(6, false); (7, false); (4, false); (5, false); (2, false); (3, false); (0, false); (1, false); (9, false); (8, false)]);
  ("ucbmu", [(6, false); (7, false); (4, false); (5, false); (2, false); (3, false); (0, false); (1, false); (9, false); (8, false)]);
  ("ucbtau", [(6, false); (7, false); (4, false); (5, false); (2, false); (3, false); (0, false); (1, false); (9, false); (8, false)]);
  ("ccbe", [(3, false); (2, false); (1, false); (0, false)]);
  ("ccbmu", [(3, false); (2, false); (1, false); (0, false)]);
  ("ccbtau", [(3, false); (2, false); (1, false); (0, false)])].
