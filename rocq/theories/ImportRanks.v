(** Generated by tools/gen_ranks.py from TabImports.v: do not edit.  Packages with
    their rank; checked in ImportTabs.v. *)
From Coq Require Import PArith.
From stdpp Require Import prelude.
Local Open Scope positive_scope.
Definition ranks : list (positive * positive) := [
  (1, 1); (2, 2); (3, 3); (5, 4); (6, 6); (20, 6); (24, 7); (34, 4); (35, 5); (50, 5); (51, 6); (54, 6);
  (56, 5); (58, 6); (60, 6); (77, 3); (79, 4); (80, 6); (94, 6); (98, 7); (108, 4); (109, 5); (124, 5); (125, 6);
  (128, 6); (130, 5); (132, 6); (134, 6); (151, 3); (153, 4); (154, 6); (168, 6); (172, 7); (182, 4); (183, 5); (198, 5);
  (199, 6); (202, 6); (204, 5); (206, 6); (208, 6); (225, 2); (226, 3); (227, 5); (231, 4); (252, 4); (254, 5); (260, 4);
  (261, 5); (271, 5); (287, 5); (297, 5); (305, 5); (334, 3); (335, 4); (338, 4); (346, 4); (348, 4); (351, 3); (352, 4);
  (358, 5); (361, 2); (362, 3); (364, 4); (365, 6); (367, 6); (369, 6); (371, 4); (372, 6); (374, 5); (386, 6); (411, 7);
  (433, 7); (435, 7); (438, 7); (440, 7); (442, 7); (448, 7); (451, 5); (452, 6); (454, 6); (457, 6); (459, 6); (462, 6);
  (464, 5); (466, 6); (471, 3); (472, 4); (476, 3); (495, 4); (497, 4); (500, 4); (501, 5); (510, 5); (522, 4); (527, 3);
  (533, 4); (556, 3); (557, 4); (560, 4); (567, 4); (569, 4); (572, 3); (573, 4); (579, 5); (582, 2); (583, 4); (599, 4);
  (606, 4); (625, 5); (634, 7); (637, 6); (659, 5); (686, 5); (696, 5); (698, 2); (699, 4); (703, 4); (709, 3); (739, 3);
  (740, 4); (758, 5); (794, 5); (798, 5); (824, 5); (829, 5); (852, 5); (891, 5); (895, 4); (901, 3); (902, 4); (916, 4);
  (953, 3); (954, 4); (957, 4); (974, 4); (1002, 4); (1012, 4); (1017, 4); (1024, 4); (1030, 4); (1040, 4); (1043, 4); (1089, 1);
  (1090, 2); (1091, 3); (1093, 4); (1094, 7); (1107, 6); (1109, 4); (1110, 5); (1114, 6); (1123, 3); (1125, 4); (1126, 5); (1130, 5);
  (1131, 6); (1133, 6); (1135, 6); (1158, 3); (1160, 4); (1161, 5); (1180, 6); (1206, 6); (1209, 3); (1211, 4); (1212, 6); (1216, 4);
  (1217, 5); (1224, 6); (1244, 2); (1245, 5); (1262, 4); (1272, 4); (1290, 5); (1299, 7); (1302, 6); (1326, 5); (1353, 5); (1355, 2);
  (1356, 4); (1363, 4); (1367, 4); (1373, 3); (1405, 5); (1408, 3); (1410, 4); (1416, 3); (1417, 4); (1431, 4); (1467, 4); (1475, 3);
  (1476, 5); (1480, 6); (1534, 5); (1547, 4); (1550, 5); (1560, 6); (1604, 5); (1636, 7); (1641, 6); (1652, 7); (1655, 6); (1680, 7);
  (1683, 7); (1730, 4); (1747, 4); (1773, 4); (1790, 4); (1795, 4); (1800, 4); (1806, 4); (1816, 4); (1819, 4); (1881, 4); (1886, 5);
  (1891, 2)
].
