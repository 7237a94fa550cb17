(** * The results of verify_cache_length recorded in test_results (written by scripts/gen_lengths.py) *)

From Coq Require Import ZArith List.
Import ListNotations.
Open Scope Z_scope.

(** test_results/binary32_negative_k.csv, lines 2-100: (e, required_bits) *)
Definition binary32_negative_k : list (Z * Z) := [
  (-2, 30); (-1, 31); (0, 32); (1, 32); (2, 33); (3, 34); (4, 34); (5, 35); (6, 36); (7, 37); (8, 37); (9, 38);
  (10, 39); (11, 39); (12, 40); (13, 41); (14, 41); (15, 42); (16, 43); (17, 44); (18, 44); (19, 45); (20, 46);
  (21, 46); (22, 47); (23, 48); (24, 48); (25, 49); (26, 50); (27, 51); (28, 51); (29, 52); (30, 53); (31, 53);
  (32, 54); (33, 55); (34, 52); (35, 54); (36, 55); (37, 56); (38, 53); (39, 53); (40, 54); (41, 53); (42, 53);
  (43, 55); (44, 52); (45, 54); (46, 55); (47, 56); (48, 53); (49, 53); (50, 53); (51, 53); (52, 54); (53, 55);
  (54, 55); (55, 55); (56, 55); (57, 55); (58, 54); (59, 55); (60, 56); (61, 54); (62, 55); (63, 56); (64, 54);
  (65, 54); (66, 54); (67, 54); (68, 51); (69, 51); (70, 51); (71, 51); (72, 51); (73, 51); (74, 52); (75, 52);
  (76, 52); (77, 52); (78, 51); (79, 51); (80, 51); (81, 51); (82, 51); (83, 52); (84, 53); (85, 54); (86, 56);
  (87, 57); (88, 52); (89, 53); (90, 56); (91, 53); (92, 53); (93, 54); (94, 52); (95, 53); (96, 55)].

(** test_results/binary32_positive_k.csv, lines 2-156: (e, required_bits) *)
Definition binary32_positive_k : list (Z * Z) := [
  (-3, 1); (-4, 1); (-5, 1); (-6, 1); (-7, 3); (-8, 3); (-9, 3); (-10, 5); (-11, 5); (-12, 5); (-13, 7); (-14, 7);
  (-15, 7); (-16, 10); (-17, 10); (-18, 10); (-19, 10); (-20, 12); (-21, 12); (-22, 12); (-23, 14); (-24, 14);
  (-25, 14); (-26, 17); (-27, 17); (-28, 17); (-29, 17); (-30, 19); (-31, 19); (-32, 19); (-33, 21); (-34, 21);
  (-35, 21); (-36, 24); (-37, 24); (-38, 24); (-39, 24); (-40, 26); (-41, 26); (-42, 26); (-43, 28); (-44, 28);
  (-45, 28); (-46, 31); (-47, 31); (-48, 31); (-49, 31); (-50, 33); (-51, 33); (-52, 33); (-53, 35); (-54, 35);
  (-55, 35); (-56, 38); (-57, 38); (-58, 38); (-59, 38); (-60, 40); (-61, 40); (-62, 40); (-63, 42); (-64, 42);
  (-65, 42); (-66, 45); (-67, 45); (-68, 45); (-69, 45); (-70, 47); (-71, 47); (-72, 47); (-73, 49); (-74, 49);
  (-75, 49); (-76, 52); (-77, 52); (-78, 52); (-79, 52); (-80, 53); (-81, 52); (-82, 52); (-83, 55); (-84, 55);
  (-85, 54); (-86, 56); (-87, 56); (-88, 54); (-89, 53); (-90, 55); (-91, 53); (-92, 53); (-93, 56); (-94, 55);
  (-95, 54); (-96, 57); (-97, 54); (-98, 53); (-99, 52); (-100, 56); (-101, 55); (-102, 55); (-103, 55); (-104, 55);
  (-105, 53); (-106, 55); (-107, 55); (-108, 52); (-109, 57); (-110, 57); (-111, 57); (-112, 57); (-113, 56);
  (-114, 56); (-115, 56); (-116, 56); (-117, 56); (-118, 53); (-119, 56); (-120, 55); (-121, 54); (-122, 53);
  (-123, 55); (-124, 55); (-125, 55); (-126, 57); (-127, 53); (-128, 53); (-129, 56); (-130, 56); (-131, 55);
  (-132, 55); (-133, 54); (-134, 50); (-135, 49); (-136, 58); (-137, 58); (-138, 58); (-139, 61); (-140, 60);
  (-141, 60); (-142, 59); (-143, 61); (-144, 60); (-145, 59); (-146, 58); (-147, 57); (-148, 53); (-149, 55);
  (-150, 54); (-151, 53); (-152, 52); (-153, 54); (-154, 53); (-155, 53); (-156, 57); (-157, 57)].

(** test_results/binary64_negative_k.csv, lines 2-964: (e, required_bits) *)
Definition binary64_negative_k : list (Z * Z) := [
  (-2, 62); (-1, 63); (0, 64); (1, 64); (2, 65); (3, 66); (4, 66); (5, 67); (6, 68); (7, 69); (8, 69); (9, 70);
  (10, 71); (11, 71); (12, 72); (13, 73); (14, 73); (15, 74); (16, 75); (17, 76); (18, 76); (19, 77); (20, 78);
  (21, 78); (22, 79); (23, 80); (24, 80); (25, 81); (26, 82); (27, 83); (28, 83); (29, 84); (30, 85); (31, 85);
  (32, 86); (33, 87); (34, 87); (35, 88); (36, 89); (37, 90); (38, 90); (39, 91); (40, 92); (41, 92); (42, 93);
  (43, 94); (44, 94); (45, 95); (46, 96); (47, 97); (48, 97); (49, 98); (50, 99); (51, 99); (52, 100); (53, 101);
  (54, 101); (55, 102); (56, 103); (57, 104); (58, 104); (59, 105); (60, 106); (61, 106); (62, 107); (63, 108);
  (64, 108); (65, 109); (66, 110); (67, 111); (68, 111); (69, 112); (70, 113); (71, 113); (72, 114); (73, 115);
  (74, 114); (75, 115); (76, 116); (77, 117); (78, 114); (79, 119); (80, 119); (81, 119); (82, 119); (83, 119);
  (84, 114); (85, 116); (86, 116); (87, 119); (88, 114); (89, 115); (90, 116); (91, 113); (92, 114); (93, 115);
  (94, 113); (95, 114); (96, 115); (97, 113); (98, 114); (99, 115); (100, 116); (101, 113); (102, 114); (103, 115);
  (104, 113); (105, 113); (106, 114); (107, 114); (108, 114); (109, 115); (110, 115); (111, 111); (112, 111);
  (113, 113); (114, 113); (115, 116); (116, 117); (117, 115); (118, 115); (119, 115); (120, 115); (121, 114);
  (122, 115); (123, 116); (124, 116); (125, 116); (126, 120); (127, 114); (128, 115); (129, 116); (130, 121);
  (131, 114); (132, 115); (133, 116); (134, 110); (135, 113); (136, 116); (137, 113); (138, 117); (139, 117);
  (140, 117); (141, 115); (142, 116); (143, 118); (144, 111); (145, 113); (146, 115); (147, 111); (148, 115);
  (149, 116); (150, 117); (151, 114); (152, 114); (153, 114); (154, 112); (155, 113); (156, 114); (157, 112);
  (158, 113); (159, 114); (160, 115); (161, 114); (162, 115); (163, 116); (164, 113); (165, 114); (166, 115);
  (167, 113); (168, 116); (169, 117); (170, 118); (171, 115); (172, 116); (173, 117); (174, 115); (175, 116);
  (176, 117); (177, 115); (178, 116); (179, 116); (180, 116); (181, 113); (182, 114); (183, 115); (184, 113);
  (185, 114); (186, 115); (187, 114); (188, 117); (189, 117); (190, 114); (191, 114); (192, 114); (193, 116);
  (194, 111); (195, 111); (196, 116); (197, 114); (198, 115); (199, 116); (200, 116); (201, 116); (202, 116);
  (203, 120); (204, 112); (205, 112); (206, 112); (207, 110); (208, 110); (209, 110); (210, 110); (211, 111);
  (212, 113); (213, 115); (214, 115); (215, 116); (216, 117); (217, 117); (218, 117); (219, 117); (220, 114);
  (221, 114); (222, 115); (223, 116); (224, 114); (225, 114); (226, 115); (227, 114); (228, 114); (229, 115);
  (230, 115); (231, 116); (232, 117); (233, 118); (234, 117); (235, 118); (236, 119); (237, 117); (238, 118);
  (239, 118); (240, 116); (241, 116); (242, 116); (243, 118); (244, 115); (245, 115); (246, 115); (247, 115);
  (248, 115); (249, 115); (250, 114); (251, 115); (252, 116); (253, 117); (254, 114); (255, 114); (256, 114);
  (257, 113); (258, 114); (259, 115); (260, 112); (261, 115); (262, 116); (263, 117); (264, 116); (265, 116);
  (266, 116); (267, 112); (268, 114); (269, 114); (270, 112); (271, 115); (272, 115); (273, 115); (274, 114);
  (275, 114); (276, 114); (277, 114); (278, 114); (279, 115); (280, 114); (281, 115); (282, 116); (283, 117);
  (284, 114); (285, 115); (286, 116); (287, 114); (288, 115); (289, 116); (290, 115); (291, 115); (292, 116);
  (293, 115); (294, 115); (295, 115); (296, 117); (297, 111); (298, 112); (299, 114); (300, 115); (301, 116);
  (302, 117); (303, 115); (304, 116); (305, 117); (306, 118); (307, 113); (308, 114); (309, 114); (310, 114);
  (311, 115); (312, 116); (313, 114); (314, 115); (315, 116); (316, 116); (317, 115); (318, 116); (319, 117);
  (320, 113); (321, 114); (322, 115); (323, 111); (324, 113); (325, 117); (326, 118); (327, 114); (328, 115);
  (329, 116); (330, 114); (331, 116); (332, 117); (333, 117); (334, 118); (335, 118); (336, 118); (337, 113);
  (338, 113); (339, 115); (340, 115); (341, 116); (342, 117); (343, 114); (344, 114); (345, 115); (346, 116);
  (347, 114); (348, 115); (349, 116); (350, 116); (351, 116); (352, 116); (353, 114); (354, 118); (355, 118);
  (356, 118); (357, 118); (358, 118); (359, 118); (360, 114); (361, 116); (362, 117); (363, 115); (364, 115);
  (365, 116); (366, 117); (367, 115); (368, 115); (369, 116); (370, 114); (371, 117); (372, 117); (373, 114);
  (374, 119); (375, 120); (376, 121); (377, 114); (378, 115); (379, 116); (380, 114); (381, 115); (382, 115);
  (383, 113); (384, 114); (385, 120); (386, 113); (387, 114); (388, 117); (389, 117); (390, 114); (391, 115);
  (392, 116); (393, 117); (394, 118); (395, 118); (396, 118); (397, 118); (398, 118); (399, 118); (400, 114);
  (401, 114); (402, 116); (403, 115); (404, 116); (405, 116); (406, 113); (407, 114); (408, 117); (409, 117);
  (410, 116); (411, 116); (412, 116); (413, 114); (414, 115); (415, 116); (416, 114); (417, 115); (418, 116);
  (419, 117); (420, 114); (421, 115); (422, 116); (423, 114); (424, 115); (425, 115); (426, 114); (427, 115);
  (428, 116); (429, 116); (430, 114); (431, 114); (432, 114); (433, 113); (434, 114); (435, 117); (436, 113);
  (437, 113); (438, 115); (439, 115); (440, 114); (441, 114); (442, 115); (443, 115); (444, 115); (445, 116);
  (446, 114); (447, 115); (448, 116); (449, 117); (450, 115); (451, 115); (452, 115); (453, 112); (454, 113);
  (455, 115); (456, 115); (457, 115); (458, 115); (459, 115); (460, 114); (461, 115); (462, 116); (463, 113);
  (464, 115); (465, 116); (466, 116); (467, 117); (468, 118); (469, 119); (470, 119); (471, 120); (472, 121);
  (473, 121); (474, 122); (475, 123); (476, 121); (477, 122); (478, 123); (479, 123); (480, 120); (481, 120);
  (482, 120); (483, 118); (484, 118); (485, 118); (486, 112); (487, 115); (488, 115); (489, 115); (490, 115);
  (491, 117); (492, 118); (493, 110); (494, 110); (495, 112); (496, 108); (497, 109); (498, 111); (499, 111);
  (500, 113); (501, 115); (502, 115); (503, 114); (504, 114); (505, 114); (506, 115); (507, 116); (508, 117);
  (509, 115); (510, 115); (511, 117); (512, 117); (513, 114); (514, 114); (515, 114); (516, 114); (517, 115);
  (518, 116); (519, 113); (520, 114); (521, 116); (522, 125); (523, 109); (524, 109); (525, 109); (526, 109);
  (527, 109); (528, 110); (529, 110); (530, 115); (531, 116); (532, 118); (533, 116); (534, 116); (535, 116);
  (536, 113); (537, 114); (538, 114); (539, 111); (540, 112); (541, 114); (542, 115); (543, 111); (544, 113);
  (545, 114); (546, 114); (547, 115); (548, 116); (549, 113); (550, 114); (551, 115); (552, 117); (553, 116);
  (554, 116); (555, 116); (556, 113); (557, 114); (558, 116); (559, 115); (560, 116); (561, 117); (562, 118);
  (563, 115); (564, 116); (565, 117); (566, 115); (567, 115); (568, 116); (569, 111); (570, 111); (571, 112);
  (572, 118); (573, 113); (574, 115); (575, 116); (576, 113); (577, 114); (578, 115); (579, 113); (580, 114);
  (581, 116); (582, 112); (583, 114); (584, 114); (585, 115); (586, 115); (587, 116); (588, 117); (589, 114);
  (590, 115); (591, 118); (592, 113); (593, 113); (594, 115); (595, 116); (596, 115); (597, 115); (598, 115);
  (599, 113); (600, 116); (601, 116); (602, 112); (603, 114); (604, 115); (605, 117); (606, 115); (607, 116);
  (608, 117); (609, 115); (610, 115); (611, 117); (612, 115); (613, 116); (614, 116); (615, 116); (616, 113);
  (617, 121); (618, 121); (619, 113); (620, 117); (621, 117); (622, 117); (623, 117); (624, 117); (625, 117);
  (626, 114); (627, 115); (628, 118); (629, 113); (630, 113); (631, 114); (632, 114); (633, 114); (634, 120);
  (635, 120); (636, 113); (637, 115); (638, 116); (639, 112); (640, 113); (641, 115); (642, 114); (643, 114);
  (644, 115); (645, 117); (646, 115); (647, 116); (648, 117); (649, 115); (650, 116); (651, 117); (652, 115);
  (653, 115); (654, 115); (655, 115); (656, 112); (657, 112); (658, 112); (659, 113); (660, 114); (661, 115);
  (662, 113); (663, 113); (664, 113); (665, 113); (666, 112); (667, 112); (668, 113); (669, 113); (670, 114);
  (671, 115); (672, 115); (673, 115); (674, 116); (675, 116); (676, 116); (677, 116); (678, 117); (679, 114);
  (680, 115); (681, 116); (682, 114); (683, 117); (684, 117); (685, 114); (686, 116); (687, 116); (688, 116);
  (689, 114); (690, 114); (691, 115); (692, 111); (693, 112); (694, 115); (695, 111); (696, 112); (697, 114);
  (698, 117); (699, 111); (700, 112); (701, 118); (702, 113); (703, 114); (704, 115); (705, 113); (706, 114);
  (707, 115); (708, 117); (709, 113); (710, 123); (711, 124); (712, 113); (713, 116); (714, 117); (715, 114);
  (716, 116); (717, 117); (718, 118); (719, 115); (720, 115); (721, 115); (722, 115); (723, 115); (724, 115);
  (725, 115); (726, 116); (727, 116); (728, 117); (729, 116); (730, 116); (731, 117); (732, 111); (733, 111);
  (734, 114); (735, 113); (736, 115); (737, 115); (738, 115); (739, 114); (740, 114); (741, 114); (742, 114);
  (743, 114); (744, 114); (745, 113); (746, 115); (747, 115); (748, 116); (749, 113); (750, 114); (751, 117);
  (752, 115); (753, 116); (754, 117); (755, 117); (756, 117); (757, 117); (758, 117); (759, 114); (760, 114);
  (761, 115); (762, 114); (763, 115); (764, 116); (765, 113); (766, 113); (767, 116); (768, 116); (769, 114);
  (770, 115); (771, 116); (772, 116); (773, 117); (774, 117); (775, 114); (776, 115); (777, 116); (778, 114);
  (779, 120); (780, 120); (781, 120); (782, 112); (783, 112); (784, 113); (785, 113); (786, 114); (787, 116);
  (788, 114); (789, 118); (790, 118); (791, 118); (792, 113); (793, 114); (794, 117); (795, 113); (796, 113);
  (797, 113); (798, 114); (799, 114); (800, 114); (801, 114); (802, 113); (803, 113); (804, 113); (805, 113);
  (806, 113); (807, 119); (808, 119); (809, 120); (810, 121); (811, 122); (812, 113); (813, 115); (814, 116);
  (815, 113); (816, 114); (817, 114); (818, 113); (819, 114); (820, 115); (821, 117); (822, 115); (823, 116);
  (824, 117); (825, 115); (826, 118); (827, 119); (828, 114); (829, 118); (830, 119); (831, 120); (832, 115);
  (833, 115); (834, 115); (835, 113); (836, 113); (837, 114); (838, 114); (839, 115); (840, 117); (841, 117);
  (842, 114); (843, 115); (844, 116); (845, 114); (846, 115); (847, 116); (848, 114); (849, 115); (850, 116);
  (851, 117); (852, 114); (853, 115); (854, 116); (855, 114); (856, 115); (857, 116); (858, 114); (859, 115);
  (860, 116); (861, 117); (862, 113); (863, 113); (864, 116); (865, 112); (866, 114); (867, 116); (868, 112);
  (869, 114); (870, 115); (871, 114); (872, 115); (873, 116); (874, 117); (875, 114); (876, 116); (877, 116);
  (878, 115); (879, 116); (880, 117); (881, 115); (882, 115); (883, 115); (884, 117); (885, 116); (886, 117);
  (887, 118); (888, 113); (889, 113); (890, 115); (891, 115); (892, 116); (893, 117); (894, 117); (895, 113);
  (896, 118); (897, 119); (898, 119); (899, 120); (900, 121); (901, 119); (902, 119); (903, 119); (904, 119);
  (905, 112); (906, 112); (907, 115); (908, 110); (909, 112); (910, 114); (911, 110); (912, 112); (913, 113);
  (914, 116); (915, 115); (916, 116); (917, 117); (918, 114); (919, 116); (920, 116); (921, 112); (922, 114);
  (923, 120); (924, 121); (925, 120); (926, 121); (927, 121); (928, 114); (929, 115); (930, 116); (931, 116);
  (932, 117); (933, 117); (934, 117); (935, 113); (936, 122); (937, 122); (938, 114); (939, 114); (940, 115);
  (941, 113); (942, 114); (943, 117); (944, 117); (945, 113); (946, 114); (947, 115); (948, 112); (949, 114);
  (950, 114); (951, 114); (952, 115); (953, 116); (954, 117); (955, 115); (956, 115); (957, 116); (958, 115);
  (959, 115); (960, 115)].

(** test_results/binary64_positive_k.csv, lines 2-1084: (e, required_bits) *)
Definition binary64_positive_k : list (Z * Z) := [
  (-3, 1); (-4, 1); (-5, 1); (-6, 1); (-7, 3); (-8, 3); (-9, 3); (-10, 5); (-11, 5); (-12, 5); (-13, 7); (-14, 7);
  (-15, 7); (-16, 10); (-17, 10); (-18, 10); (-19, 10); (-20, 12); (-21, 12); (-22, 12); (-23, 14); (-24, 14);
  (-25, 14); (-26, 17); (-27, 17); (-28, 17); (-29, 17); (-30, 19); (-31, 19); (-32, 19); (-33, 21); (-34, 21);
  (-35, 21); (-36, 24); (-37, 24); (-38, 24); (-39, 24); (-40, 26); (-41, 26); (-42, 26); (-43, 28); (-44, 28);
  (-45, 28); (-46, 31); (-47, 31); (-48, 31); (-49, 31); (-50, 33); (-51, 33); (-52, 33); (-53, 35); (-54, 35);
  (-55, 35); (-56, 38); (-57, 38); (-58, 38); (-59, 38); (-60, 40); (-61, 40); (-62, 40); (-63, 42); (-64, 42);
  (-65, 42); (-66, 45); (-67, 45); (-68, 45); (-69, 45); (-70, 47); (-71, 47); (-72, 47); (-73, 49); (-74, 49);
  (-75, 49); (-76, 52); (-77, 52); (-78, 52); (-79, 52); (-80, 54); (-81, 54); (-82, 54); (-83, 56); (-84, 56);
  (-85, 56); (-86, 59); (-87, 59); (-88, 59); (-89, 59); (-90, 61); (-91, 61); (-92, 61); (-93, 63); (-94, 63);
  (-95, 63); (-96, 66); (-97, 66); (-98, 66); (-99, 66); (-100, 68); (-101, 68); (-102, 68); (-103, 70); (-104, 70);
  (-105, 70); (-106, 72); (-107, 72); (-108, 72); (-109, 75); (-110, 75); (-111, 75); (-112, 75); (-113, 77);
  (-114, 77); (-115, 77); (-116, 79); (-117, 79); (-118, 79); (-119, 82); (-120, 82); (-121, 82); (-122, 82);
  (-123, 84); (-124, 84); (-125, 84); (-126, 86); (-127, 86); (-128, 86); (-129, 89); (-130, 89); (-131, 89);
  (-132, 89); (-133, 91); (-134, 91); (-135, 91); (-136, 93); (-137, 93); (-138, 93); (-139, 96); (-140, 96);
  (-141, 96); (-142, 96); (-143, 98); (-144, 98); (-145, 98); (-146, 100); (-147, 100); (-148, 100); (-149, 103);
  (-150, 103); (-151, 103); (-152, 103); (-153, 105); (-154, 105); (-155, 105); (-156, 107); (-157, 107);
  (-158, 107); (-159, 110); (-160, 110); (-161, 110); (-162, 110); (-163, 112); (-164, 112); (-165, 112);
  (-166, 114); (-167, 114); (-168, 114); (-169, 117); (-170, 114); (-171, 114); (-172, 114); (-173, 114);
  (-174, 114); (-175, 114); (-176, 114); (-177, 113); (-178, 113); (-179, 117); (-180, 117); (-181, 117);
  (-182, 117); (-183, 117); (-184, 117); (-185, 116); (-186, 115); (-187, 115); (-188, 114); (-189, 117);
  (-190, 117); (-191, 116); (-192, 116); (-193, 118); (-194, 118); (-195, 114); (-196, 116); (-197, 116);
  (-198, 116); (-199, 116); (-200, 115); (-201, 114); (-202, 117); (-203, 117); (-204, 116); (-205, 115);
  (-206, 115); (-207, 115); (-208, 115); (-209, 115); (-210, 115); (-211, 114); (-212, 115); (-213, 115);
  (-214, 115); (-215, 114); (-216, 116); (-217, 116); (-218, 116); (-219, 116); (-220, 115); (-221, 114);
  (-222, 118); (-223, 117); (-224, 117); (-225, 110); (-226, 115); (-227, 114); (-228, 114); (-229, 117);
  (-230, 117); (-231, 117); (-232, 118); (-233, 115); (-234, 114); (-235, 113); (-236, 115); (-237, 114);
  (-238, 113); (-239, 113); (-240, 111); (-241, 110); (-242, 114); (-243, 114); (-244, 114); (-245, 114);
  (-246, 117); (-247, 117); (-248, 116); (-249, 115); (-250, 115); (-251, 114); (-252, 117); (-253, 117);
  (-254, 117); (-255, 117); (-256, 119); (-257, 118); (-258, 118); (-259, 118); (-260, 117); (-261, 114);
  (-262, 119); (-263, 119); (-264, 119); (-265, 119); (-266, 119); (-267, 115); (-268, 115); (-269, 116);
  (-270, 115); (-271, 115); (-272, 116); (-273, 116); (-274, 114); (-275, 113); (-276, 118); (-277, 118);
  (-278, 118); (-279, 118); (-280, 118); (-281, 114); (-282, 117); (-283, 116); (-284, 116); (-285, 116);
  (-286, 118); (-287, 117); (-288, 117); (-289, 119); (-290, 118); (-291, 117); (-292, 119); (-293, 116);
  (-294, 115); (-295, 114); (-296, 115); (-297, 115); (-298, 115); (-299, 118); (-300, 118); (-301, 118);
  (-302, 117); (-303, 115); (-304, 112); (-305, 117); (-306, 115); (-307, 114); (-308, 113); (-309, 115);
  (-310, 114); (-311, 114); (-312, 115); (-313, 115); (-314, 114); (-315, 117); (-316, 117); (-317, 116);
  (-318, 114); (-319, 117); (-320, 116); (-321, 114); (-322, 116); (-323, 116); (-324, 115); (-325, 117);
  (-326, 116); (-327, 115); (-328, 114); (-329, 115); (-330, 114); (-331, 112); (-332, 116); (-333, 115);
  (-334, 115); (-335, 120); (-336, 116); (-337, 115); (-338, 114); (-339, 117); (-340, 116); (-341, 114);
  (-342, 116); (-343, 116); (-344, 115); (-345, 121); (-346, 121); (-347, 116); (-348, 116); (-349, 115);
  (-350, 114); (-351, 114); (-352, 116); (-353, 115); (-354, 115); (-355, 118); (-356, 117); (-357, 117);
  (-358, 116); (-359, 117); (-360, 115); (-361, 115); (-362, 117); (-363, 117); (-364, 116); (-365, 119);
  (-366, 119); (-367, 118); (-368, 117); (-369, 117); (-370, 116); (-371, 115); (-372, 115); (-373, 114);
  (-374, 113); (-375, 119); (-376, 116); (-377, 115); (-378, 114); (-379, 117); (-380, 117); (-381, 114);
  (-382, 118); (-383, 118); (-384, 117); (-385, 118); (-386, 116); (-387, 114); (-388, 113); (-389, 116);
  (-390, 114); (-391, 113); (-392, 117); (-393, 115); (-394, 114); (-395, 116); (-396, 115); (-397, 114);
  (-398, 116); (-399, 116); (-400, 114); (-401, 113); (-402, 116); (-403, 114); (-404, 113); (-405, 115);
  (-406, 114); (-407, 114); (-408, 119); (-409, 119); (-410, 118); (-411, 114); (-412, 116); (-413, 115);
  (-414, 115); (-415, 117); (-416, 116); (-417, 115); (-418, 118); (-419, 117); (-420, 116); (-421, 114);
  (-422, 119); (-423, 114); (-424, 113); (-425, 115); (-426, 115); (-427, 113); (-428, 119); (-429, 115);
  (-430, 115); (-431, 114); (-432, 115); (-433, 115); (-434, 115); (-435, 118); (-436, 118); (-437, 115);
  (-438, 116); (-439, 115); (-440, 114); (-441, 114); (-442, 120); (-443, 115); (-444, 113); (-445, 115);
  (-446, 114); (-447, 114); (-448, 119); (-449, 117); (-450, 116); (-451, 116); (-452, 117); (-453, 114);
  (-454, 114); (-455, 118); (-456, 115); (-457, 112); (-458, 120); (-459, 119); (-460, 115); (-461, 114);
  (-462, 119); (-463, 118); (-464, 114); (-465, 115); (-466, 114); (-467, 113); (-468, 119); (-469, 116);
  (-470, 115); (-471, 114); (-472, 116); (-473, 115); (-474, 114); (-475, 116); (-476, 115); (-477, 115);
  (-478, 119); (-479, 116); (-480, 116); (-481, 116); (-482, 115); (-483, 114); (-484, 114); (-485, 116);
  (-486, 114); (-487, 113); (-488, 116); (-489, 115); (-490, 114); (-491, 113); (-492, 116); (-493, 114);
  (-494, 114); (-495, 116); (-496, 114); (-497, 113); (-498, 119); (-499, 115); (-500, 114); (-501, 116);
  (-502, 115); (-503, 114); (-504, 114); (-505, 116); (-506, 115); (-507, 115); (-508, 116); (-509, 116);
  (-510, 114); (-511, 118); (-512, 117); (-513, 114); (-514, 114); (-515, 117); (-516, 116); (-517, 114);
  (-518, 117); (-519, 117); (-520, 115); (-521, 119); (-522, 118); (-523, 116); (-524, 116); (-525, 118);
  (-526, 116); (-527, 115); (-528, 116); (-529, 115); (-530, 114); (-531, 117); (-532, 117); (-533, 117);
  (-534, 117); (-535, 116); (-536, 116); (-537, 116); (-538, 116); (-539, 115); (-540, 115); (-541, 118);
  (-542, 116); (-543, 115); (-544, 115); (-545, 115); (-546, 115); (-547, 115); (-548, 115); (-549, 114);
  (-550, 114); (-551, 118); (-552, 116); (-553, 114); (-554, 113); (-555, 118); (-556, 115); (-557, 115);
  (-558, 116); (-559, 116); (-560, 113); (-561, 117); (-562, 116); (-563, 116); (-564, 114); (-565, 117);
  (-566, 117); (-567, 116); (-568, 116); (-569, 116); (-570, 114); (-571, 118); (-572, 118); (-573, 115);
  (-574, 114); (-575, 115); (-576, 115); (-577, 115); (-578, 117); (-579, 116); (-580, 116); (-581, 119);
  (-582, 119); (-583, 115); (-584, 115); (-585, 117); (-586, 117); (-587, 114); (-588, 115); (-589, 114);
  (-590, 113); (-591, 118); (-592, 118); (-593, 115); (-594, 116); (-595, 116); (-596, 116); (-597, 114);
  (-598, 118); (-599, 115); (-600, 114); (-601, 116); (-602, 115); (-603, 114); (-604, 114); (-605, 113);
  (-606, 113); (-607, 113); (-608, 116); (-609, 115); (-610, 115); (-611, 117); (-612, 116); (-613, 115);
  (-614, 125); (-615, 124); (-616, 114); (-617, 113); (-618, 118); (-619, 115); (-620, 111); (-621, 115);
  (-622, 115); (-623, 114); (-624, 118); (-625, 116); (-626, 116); (-627, 114); (-628, 115); (-629, 114);
  (-630, 113); (-631, 116); (-632, 115); (-633, 111); (-634, 117); (-635, 116); (-636, 114); (-637, 114);
  (-638, 116); (-639, 114); (-640, 114); (-641, 114); (-642, 113); (-643, 113); (-644, 118); (-645, 117);
  (-646, 117); (-647, 116); (-648, 118); (-649, 117); (-650, 116); (-651, 116); (-652, 114); (-653, 114);
  (-654, 118); (-655, 118); (-656, 112); (-657, 112); (-658, 115); (-659, 115); (-660, 114); (-661, 116);
  (-662, 116); (-663, 115); (-664, 118); (-665, 117); (-666, 116); (-667, 115); (-668, 117); (-669, 116);
  (-670, 115); (-671, 118); (-672, 117); (-673, 114); (-674, 117); (-675, 117); (-676, 116); (-677, 115);
  (-678, 115); (-679, 114); (-680, 113); (-681, 115); (-682, 114); (-683, 114); (-684, 116); (-685, 115);
  (-686, 115); (-687, 119); (-688, 115); (-689, 113); (-690, 113); (-691, 117); (-692, 117); (-693, 114);
  (-694, 118); (-695, 118); (-696, 117); (-697, 117); (-698, 116); (-699, 116); (-700, 113); (-701, 119);
  (-702, 114); (-703, 114); (-704, 115); (-705, 114); (-706, 113); (-707, 117); (-708, 115); (-709, 113);
  (-710, 111); (-711, 116); (-712, 113); (-713, 112); (-714, 116); (-715, 113); (-716, 112); (-717, 116);
  (-718, 115); (-719, 115); (-720, 114); (-721, 116); (-722, 115); (-723, 114); (-724, 116); (-725, 115);
  (-726, 115); (-727, 123); (-728, 117); (-729, 116); (-730, 116); (-731, 119); (-732, 119); (-733, 119);
  (-734, 119); (-735, 119); (-736, 114); (-737, 117); (-738, 116); (-739, 114); (-740, 113); (-741, 117);
  (-742, 116); (-743, 116); (-744, 116); (-745, 115); (-746, 115); (-747, 116); (-748, 116); (-749, 116);
  (-750, 113); (-751, 115); (-752, 115); (-753, 113); (-754, 116); (-755, 116); (-756, 115); (-757, 118);
  (-758, 117); (-759, 116); (-760, 115); (-761, 117); (-762, 116); (-763, 115); (-764, 117); (-765, 116);
  (-766, 115); (-767, 118); (-768, 117); (-769, 116); (-770, 115); (-771, 115); (-772, 115); (-773, 114);
  (-774, 116); (-775, 115); (-776, 113); (-777, 119); (-778, 118); (-779, 114); (-780, 114); (-781, 115);
  (-782, 115); (-783, 115); (-784, 115); (-785, 115); (-786, 113); (-787, 117); (-788, 115); (-789, 115);
  (-790, 119); (-791, 118); (-792, 116); (-793, 114); (-794, 115); (-795, 114); (-796, 113); (-797, 115);
  (-798, 114); (-799, 112); (-800, 117); (-801, 117); (-802, 116); (-803, 116); (-804, 115); (-805, 115);
  (-806, 115); (-807, 116); (-808, 115); (-809, 114); (-810, 115); (-811, 114); (-812, 113); (-813, 112);
  (-814, 114); (-815, 114); (-816, 114); (-817, 116); (-818, 115); (-819, 115); (-820, 117); (-821, 115);
  (-822, 114); (-823, 113); (-824, 115); (-825, 115); (-826, 110); (-827, 116); (-828, 116); (-829, 116);
  (-830, 117); (-831, 116); (-832, 116); (-833, 116); (-834, 116); (-835, 115); (-836, 115); (-837, 115);
  (-838, 114); (-839, 114); (-840, 117); (-841, 117); (-842, 116); (-843, 114); (-844, 119); (-845, 119);
  (-846, 119); (-847, 118); (-848, 117); (-849, 117); (-850, 118); (-851, 116); (-852, 115); (-853, 113);
  (-854, 116); (-855, 115); (-856, 113); (-857, 117); (-858, 117); (-859, 116); (-860, 119); (-861, 119);
  (-862, 118); (-863, 117); (-864, 119); (-865, 118); (-866, 117); (-867, 117); (-868, 116); (-869, 106);
  (-870, 120); (-871, 120); (-872, 120); (-873, 120); (-874, 120); (-875, 120); (-876, 120); (-877, 119);
  (-878, 118); (-879, 118); (-880, 118); (-881, 115); (-882, 115); (-883, 116); (-884, 115); (-885, 115);
  (-886, 114); (-887, 117); (-888, 117); (-889, 117); (-890, 117); (-891, 115); (-892, 115); (-893, 117);
  (-894, 116); (-895, 115); (-896, 115); (-897, 117); (-898, 116); (-899, 116); (-900, 116); (-901, 115);
  (-902, 115); (-903, 116); (-904, 115); (-905, 115); (-906, 115); (-907, 116); (-908, 115); (-909, 114);
  (-910, 116); (-911, 115); (-912, 115); (-913, 118); (-914, 117); (-915, 116); (-916, 115); (-917, 117);
  (-918, 117); (-919, 117); (-920, 116); (-921, 115); (-922, 113); (-923, 119); (-924, 116); (-925, 115);
  (-926, 113); (-927, 117); (-928, 116); (-929, 113); (-930, 116); (-931, 116); (-932, 113); (-933, 116);
  (-934, 115); (-935, 115); (-936, 113); (-937, 115); (-938, 115); (-939, 115); (-940, 116); (-941, 116);
  (-942, 114); (-943, 117); (-944, 117); (-945, 115); (-946, 114); (-947, 118); (-948, 115); (-949, 114);
  (-950, 116); (-951, 115); (-952, 115); (-953, 119); (-954, 119); (-955, 115); (-956, 115); (-957, 118);
  (-958, 117); (-959, 117); (-960, 116); (-961, 115); (-962, 115); (-963, 117); (-964, 117); (-965, 114);
  (-966, 113); (-967, 114); (-968, 113); (-969, 112); (-970, 114); (-971, 114); (-972, 114); (-973, 119);
  (-974, 119); (-975, 115); (-976, 114); (-977, 116); (-978, 116); (-979, 115); (-980, 115); (-981, 114);
  (-982, 114); (-983, 116); (-984, 116); (-985, 116); (-986, 117); (-987, 117); (-988, 115); (-989, 115);
  (-990, 119); (-991, 115); (-992, 115); (-993, 116); (-994, 115); (-995, 113); (-996, 115); (-997, 115);
  (-998, 114); (-999, 114); (-1000, 116); (-1001, 115); (-1002, 113); (-1003, 117); (-1004, 116); (-1005, 116);
  (-1006, 118); (-1007, 115); (-1008, 115); (-1009, 114); (-1010, 115); (-1011, 115); (-1012, 114); (-1013, 116);
  (-1014, 116); (-1015, 115); (-1016, 117); (-1017, 117); (-1018, 115); (-1019, 114); (-1020, 114); (-1021, 114);
  (-1022, 114); (-1023, 117); (-1024, 116); (-1025, 116); (-1026, 117); (-1027, 115); (-1028, 114); (-1029, 113);
  (-1030, 116); (-1031, 114); (-1032, 114); (-1033, 117); (-1034, 117); (-1035, 117); (-1036, 118); (-1037, 118);
  (-1038, 117); (-1039, 117); (-1040, 117); (-1041, 114); (-1042, 114); (-1043, 117); (-1044, 115); (-1045, 115);
  (-1046, 116); (-1047, 115); (-1048, 114); (-1049, 114); (-1050, 115); (-1051, 115); (-1052, 113); (-1053, 116);
  (-1054, 114); (-1055, 114); (-1056, 116); (-1057, 116); (-1058, 114); (-1059, 113); (-1060, 119); (-1061, 115);
  (-1062, 115); (-1063, 118); (-1064, 114); (-1065, 113); (-1066, 116); (-1067, 115); (-1068, 114); (-1069, 114);
  (-1070, 114); (-1071, 114); (-1072, 114); (-1073, 116); (-1074, 116); (-1075, 115); (-1076, 117); (-1077, 116);
  (-1078, 114); (-1079, 117); (-1080, 116); (-1081, 116); (-1082, 116); (-1083, 116); (-1084, 114); (-1085, 113)].
