(** Numbers of the repository's unit tests as pairs (m, k) for m / 10^k; written by
    tools/gen_conf.py from /repo/pyspectral/tests. *)
From Coq Require Import ZArith List.
Import ListNotations.
Local Open Scope Z_scope.

(** tests/test_rad_tb_conversions.py:25-33 *)
Definition d_modis_wavelength : list (Z * Z) := [
  (36123999, 7); (36163599, 7); (36264927, 7); (36363862, 7); (3646468, 6); (36564937, 7); (36664478, 7);
  (36765388, 7); (36865413, 7); (36964585, 7); (37065142, 7); (3716509, 6); (37264658, 7); (37364102, 7);
  (37463682, 7); (37563652, 7); (37664226, 7); (37763396, 7); (37863384, 7); (37964207, 7); (38063589, 7);
  (38163606, 7); (38264089, 7); (38364836, 7); (38463381, 7); (38563975, 7); (38664163, 7); (38763755, 7);
  (38864797, 7); (38964978, 7); (39064275, 7); (39164873, 7); (39264729, 7); (39364026, 7); (39465107, 7);
  (39535347, 7)].
(** tests/test_rad_tb_conversions.py:35-42 *)
Definition d_modis_response : list (Z * Z) := [
  (1, 2); (118, 4); (1987, 5); (3226, 5); (5028, 5); (849, 4); (16645, 5); (33792, 5); (59106, 5); (81815, 5); (96077, 5);
  (92855, 5); (86008, 5); (8661, 4); (87697, 5); (85412, 5); (88922, 5); (9541, 4); (95687, 5); (91037, 5); (91058, 5);
  (94256, 5); (94719, 5); (94808, 5); (1, 0); (92676, 5); (67429, 5); (44715, 5); (27762, 5); (14852, 5); (7141, 5);
  (4151, 5); (2925, 5); (2085, 5); (1414, 5); (1, 2)].
(** tests/test_rad_tb_conversions.py:50-76 *)
Definition d_sev_wavenumber : list (Z * Z) := [
  (208333325195, 8); (209100048828, 8); (209872387695, 8); (210650488281, 8); (211434375, 5); (212224121094, 8);
  (213019775391, 8); (213821435547, 8); (214629101562, 8); (215442944336, 8); (216262963867, 8); (217089257812, 8);
  (217921899414, 8); (2187609375, 6); (219606494141, 8); (220458569336, 8); (221317285156, 8); (222182714844, 8);
  (223054956055, 8); (223934082031, 8); (224820141602, 8); (225713256836, 8); (226613500977, 8); (227520947266, 8);
  (228435668945, 8); (229357788086, 8); (230287402344, 8); (231224584961, 8); (23216940918, 7); (233121972656, 8);
  (234082421875, 8); (23505078125, 7); (236027197266, 8); (237011743164, 8); (23800456543, 7); (239005737305, 8);
  (240015356445, 8); (241033544922, 8); (242060449219, 8); (24309609375, 7); (244140625, 5); (245194189453, 8);
  (24625690918, 7); (247328857422, 8); (248410180664, 8); (249501025391, 8); (250601416016, 8); (251711645508, 8);
  (252831713867, 8); (253961816406, 8); (255102050781, 8); (256252587891, 8); (257413525391, 8); (25858503418, 7);
  (259767236328, 8); (260960351562, 8); (262164453125, 8); (2633796875, 6); (264606274414, 8); (265844335938, 8);
  (267094018555, 8); (268355541992, 8); (269628979492, 8); (270914624023, 8); (272212548828, 8); (273522973633, 8);
  (27484609375, 7); (276182055664, 8); (277531103516, 8); (278893359375, 8); (280269042969, 8); (281658422852, 8);
  (283061621094, 8); (284478833008, 8); (285910351562, 8); (287356323242, 8); (288817016602, 8); (290292626953, 8);
  (291783374023, 8); (293289550781, 8); (294811328125, 8); (296348999023, 8); (297902758789, 8); (299472924805, 8);
  (301059741211, 8); (302663452148, 8); (304284326172, 8); (305922705078, 8); (307578735352, 8); (309252880859, 8);
  (310945263672, 8); (312656323242, 8); (314386328125, 8); (316135571289, 8); (317904394531, 8); (31969309082, 7);
  (321502050781, 8); (323331640625, 8); (325182104492, 8); (32705390625, 7)].
(** tests/test_rad_tb_conversions.py:78-111 *)
Definition d_sev_response : list (Z * Z) := [
  (585991074, 15); (505963471, 13); (154738867, 12); (875972546, 15); (223005936, 13); (617855985, 13);
  (141724333, 12); (187453145, 14); (319355922, 14); (108511595, 12); (212896630, 12); (565914146, 12);
  (593333738, 12); (245316158, 12); (177410198, 12); (318188017, 12); (527926895, 13); (141405777, 12);
  (164295849, 11); (269834511, 11); (489762053, 11); (271760323, 11); (249398337, 11); (483754929, 11);
  (108462553, 10); (553890038, 11); (830772892, 11); (133131407, 10); (289320182, 10); (469624363, 10);
  (685162693, 10); (117517754, 9); (226854816, 9); (369935125, 9); (516705751, 9); (670479536, 9); (818419516, 9);
  (900036395, 9); (959491372, 9); (960837066, 9); (963596582, 9); (977563441, 9); (998380423, 9); (998030603, 9);
  (993735969, 9); (984225452, 9); (998880267, 9); (100000000, 8); (990870714, 9); (975207090, 9); (968391836, 9);
  (973213553, 9); (975407243, 9); (957278728, 9); (968693912, 9); (978199899, 9); (973649919, 9); (981804073, 9);
  (971176386, 9); (972167253, 9); (960459769, 9); (940638900, 9); (924033165, 9); (916043043, 9); (879902899, 9);
  (811953366, 9); (669838488, 9); (460774124, 9); (268200457, 9); (134857073, 9); (640064552, 10); (331763141, 10);
  (124335978, 10); (622070907, 11); (253354642, 11); (181269188, 13); (463075470, 11); (178873568, 12);
  (101367442, 11); (128920563, 11); (491134451, 13); (677187869, 12); (244393433, 11); (262995227, 11);
  (638825062, 12); (170478446, 11); (103909883, 11); (127910142, 12); (295412028, 12); (880619162, 12);
  (242782771, 12); (755985593, 14); (355220342, 12); (871264958, 12); (201994626, 12); (814358555, 14);
  (214082262, 12); (107610082, 12); (582974189, 14); (416795141, 12)].
(** tests/test_utils.py:97-102 *)
Definition d_ahi_cw : list (Z * Z) := [
  (96372744012936646, 16); (10407492196078628, 15); (73468642293967275, 16); (85926867614178715, 16);
  (13280724258676756, 15); (11239642285822033, 15); (12380741429961382, 15); (47063607733748003, 17);
  (5099976405799187, 16); (63914891611559055, 17); (85668832355426627, 17); (16100814361999056, 16);
  (22568056299864101, 16); (38853663735353847, 16); (62428987228916233, 16); (69411756334211789, 16)].
(** tests/test_utils.py:103-105 *)
Definition d_ch3_wavelength : list (Z * Z) := [
  (55518544, 8); (56779468, 8); (58099002, 8); (59481323, 8); (60931027, 8); (62453163, 8); (64053291, 8);
  (65737575, 8); (67512828, 8); (69386619, 8); (71367401, 8)].
(** tests/test_utils.py:106-109 *)
Definition d_ch3_response : list (Z * Z) := [
  (261000005, 13); (107899999, 12); (326119992, 11); (290650606, 9); (902460396, 9); (960878074, 9); (997266889, 9);
  (994823873, 9); (718220174, 9); (831819978, 11); (934999989, 13)].
(** tests/test_utils.py:46-56 *)
Definition d_wavenumber : list (Z * Z) := [
  (252938208008, 8); (25338840332, 7); (2540390625, 6); (254681494141, 8); (255330883789, 8); (255988354492, 8);
  (256640722656, 8); (257302270508, 8); (257972949219, 8); (258637451172, 8); (259309375, 5); (259987548828, 8);
  (260655371094, 8); (261341674805, 8); (262029760742, 8); (262718286133, 8); (263406005859, 8); (264107421875, 8);
  (264806713867, 8); (265503930664, 8); (266214794922, 8); (266925170898, 8); (267636572266, 8); (268350805664, 8);
  (269069702148, 8); (269795288086, 8); (270529199219, 8); (271256982422, 8); (271994970703, 8); (272743554688, 8);
  (27348605957, 7); (274238012695, 8); (27499831543, 7); (275748510742, 8); (276521142578, 8); (276824291992, 8)].
(** tests/data.py:5-244 *)
Definition d_ray_lut : list (Z * Z) := [
  (8674087, 8); (9136106, 8); (9747749, 8); (10483709, 8); (11197918, 8); (11989009, 8); (8674087, 8); (9136106, 8);
  (9747749, 8); (10483709, 8); (11197918, 8); (11989009, 8); (8674087, 8); (9136106, 8); (9747749, 8); (10483709, 8);
  (11197918, 8); (11989009, 8); (8674087, 8); (9136106, 8); (9747749, 8); (10483709, 8); (11197918, 8); (11989009, 8);
  (8674087, 8); (9136106, 8); (9747749, 8); (10483709, 8); (11197918, 8); (11989009, 8); (8674087, 8); (9136106, 8);
  (9747749, 8); (10483709, 8); (11197918, 8); (11989009, 8); (8674087, 8); (9136106, 8); (9747749, 8); (10483709, 8);
  (11197918, 8); (11989009, 8); (9136979, 8); (10504843, 8); (11598711, 8); (12744273, 8); (13782722, 8);
  (14888419, 8); (9136979, 8); (10963526, 8); (12184923, 8); (1340847, 7); (1449452, 7); (15637435, 8); (9136979, 8);
  (11429033, 8); (12797441, 8); (14119054, 8); (15270099, 8); (16467966, 8); (9136979, 8); (11879041, 8);
  (13403104, 8); (148341, 6); (16060819, 8); (17325042, 8); (9136979, 8); (12289842, 8); (13965668, 8); (15506919, 8);
  (16811888, 8); (18146138, 8); (9136979, 8); (12638275, 8); (14449048, 8); (16090511, 8); (17467757, 8);
  (18867479, 8); (9136979, 8); (12903725, 8); (14820713, 8); (16542192, 8); (17977735, 8); (19430672, 8); (9770439, 8);
  (11633682, 8); (13083367, 8); (14558658, 8); (15871949, 8); (17253682, 8); (9770439, 8); (12222815, 8); (1385407, 7);
  (15448725, 8); (16840136, 8); (18287206, 8); (9770439, 8); (12838849, 8); (14689755, 8); (16441305, 8);
  (17942691, 8); (19487251, 8); (9770439, 8); (13448341, 8); (15538828, 8); (1746958, 7); (19100924, 8); (2076374, 7);
  (9770439, 8); (14014703, 8); (16343349, 8); (18457347, 8); (20224202, 8); (22012109, 8); (9770439, 8); (145015, 6);
  (17044669, 8); (19326743, 8); (21219398, 8); (2312444, 7); (9770439, 8); (14875875, 8); (17589334, 8); (20006391, 8);
  (2200084, 7); (24001162, 8); (10476043, 8); (12730193, 8); (14485791, 8); (16252086, 8); (17811924, 8);
  (19444124, 8); (10476043, 8); (13393609, 8); (1536921, 7); (17286742, 8); (18949454, 8); (20670664, 8);
  (10476043, 8); (14103112, 8); (16352981, 8); (1847426, 7); (20284064, 8); (22138707, 8); (10476043, 8);
  (14816879, 8); (17371155, 8); (19728105, 8); (21712975, 8); (23729804, 8); (10476043, 8); (15488368, 8);
  (18348569, 8); (20948288, 8); (23116438, 8); (25305021, 8); (10476043, 8); (16070729, 8); (19208454, 8);
  (22031873, 8); (24370587, 8); (26720098, 8); (10476043, 8); (16521415, 8); (19880453, 8); (22884041, 8);
  (25360978, 8); (27841446, 8); (1120667, 7); (13792118, 8); (15820341, 8); (17850193, 8); (19635648, 8);
  (21498759, 8); (1120667, 7); (14504395, 8); (16782986, 8); (18990578, 8); (20900121, 8); (22872949, 8); (1120667, 7);
  (15280494, 8); (17878079, 8); (20329139, 8); (22417869, 8); (24555644, 8); (1120667, 7); (16071741, 8);
  (19027683, 8); (21762682, 8); (24065644, 8); (26404151, 8); (1120667, 7); (16823316, 8); (20142072, 8);
  (23170955, 8); (25698766, 8); (28249979, 8); (1120667, 7); (17479622, 8); (21129078, 8); (24429555, 8);
  (27166918, 8); (29917511, 8); (1120667, 7); (17989942, 8); (21903923, 8); (25423542, 8); (28330877, 8);
  (31243759, 8); (11937116, 8); (1481346, 7); (17089175, 8); (19360995, 8); (21355113, 8); (23432958, 8);
  (11937116, 8); (15560584, 8); (18112014, 8); (20584509, 8); (22721454, 8); (24927552, 8); (11937116, 8);
  (1638788, 7); (19296584, 8); (2204735, 7); (24391988, 8); (26791269, 8); (11937116, 8); (17240813, 8); (20554543, 8);
  (23631771, 8); (26225504, 8); (28860074, 8); (11937116, 8); (18057401, 8); (21783453, 8); (25199723, 8);
  (28055337, 8); (30939347, 8); (11937116, 8); (18774456, 8); (2287764, 7); (2660788, 7); (29707828, 8); (32825708, 8);
  (11937116, 8); (19334124, 8); (23739642, 8); (27723548, 8); (31021801, 8); (34330076, 8); (12654956, 8);
  (15792611, 8); (18295991, 8); (20792282, 8); (22981073, 8); (25260118, 8); (12654956, 8); (16566017, 8);
  (19367036, 8); (22084379, 8); (24432887, 8); (26857057, 8); (12654956, 8); (17434727, 8); (20626743, 8);
  (23653543, 8); (26235542, 8); (2887862, 7); (12654956, 8); (18339045, 8); (21977519, 8); (25369033, 8);
  (28231725, 8); (31141591, 8); (12654956, 8); (19210649, 8); (2330557, 7); (27076817, 8); (30235004, 8);
  (33427787, 8); (12654956, 8); (19979581, 8); (24493121, 8); (28616577, 8); (32050651, 8); (35508752, 8);
  (12654956, 8); (20581633, 8); (25431335, 8); (29839623, 8); (3349773, 7); (3717185, 7); (13354035, 8); (16730131, 8);
  (1944498, 7); (22151162, 8); (24522819, 8); (26991537, 8); (13354035, 8); (17524174, 8); (205561, 6); (23501766, 8);
  (26048598, 8); (28677997, 8); (13354035, 8); (18427604, 8); (21880829, 8); (2516436, 7); (2796835, 7); (30840391, 8);
  (13354035, 8); (19376101, 8); (23313227, 8); (26996389, 8); (301101, 6); (33277988, 8); (13354035, 8); (20295599, 8);
  (24729177, 8); (28829286, 8); (32269374, 8); (35751078, 8); (13354035, 8); (21110033, 8); (25999904, 8);
  (30487204, 8); (34232211, 8); (38008249, 8); (13354035, 8); (21749419, 8); (27006209, 8); (31806877, 8);
  (35799569, 8); (39815274, 8); (8281091, 8); (8716187, 8); (9298168, 8); (10001923, 8); (10687307, 8); (1144878, 7);
  (8281091, 8); (8716187, 8); (9298168, 8); (10001923, 8); (10687307, 8); (1144878, 7); (8281091, 8); (8716187, 8);
  (9298168, 8); (10001923, 8); (10687307, 8); (1144878, 7); (8281091, 8); (8716187, 8); (9298168, 8); (10001923, 8);
  (10687307, 8); (1144878, 7); (8281091, 8); (8716187, 8); (9298168, 8); (10001923, 8); (10687307, 8); (1144878, 7);
  (8281091, 8); (8716187, 8); (9298168, 8); (10001923, 8); (10687307, 8); (1144878, 7); (8281091, 8); (8716187, 8);
  (9298168, 8); (10001923, 8); (10687307, 8); (1144878, 7); (8716995, 8); (10021306, 8); (11065988, 8); (1216338, 7);
  (13160965, 8); (14226003, 8); (8716995, 8); (10463518, 8); (11631651, 8); (128049, 6); (13849056, 8); (14950748, 8);
  (8716995, 8); (10912296, 8); (1222268, 7); (134912, 6); (14598775, 8); (15754336, 8); (8716995, 8); (11346125, 8);
  (12807082, 8); (1418179, 7); (15363106, 8); (16583586, 8); (8716995, 8); (11742149, 8); (13349886, 8); (14831585, 8);
  (16089101, 8); (17378008, 8); (8716995, 8); (12078047, 8); (13816285, 8); (15395202, 8); (16723064, 8);
  (18075909, 8); (8716995, 8); (12333941, 8); (14174888, 8); (15831415, 8); (17216003, 8); (18620792, 8); (9319749, 8);
  (11099385, 8); (1248566, 7); (13900164, 8); (15162589, 8); (16494158, 8); (9319749, 8); (1166788, 7); (13230009, 8);
  (14760584, 8); (16099313, 8); (17495009, 8); (9319749, 8); (12262317, 8); (14037088, 8); (15720059, 8);
  (17165995, 8); (18657063, 8); (9319749, 8); (12850425, 8); (14857073, 8); (16714016, 8); (18286508, 8);
  (19893105, 8); (9319749, 8); (13396908, 8); (1563402, 7); (17668797, 8); (19373187, 8); (21101901, 8); (9319749, 8);
  (13866612, 8); (16311291, 8); (18509151, 8); (20335945, 8); (22178954, 8); (9319749, 8); (14227839, 8);
  (16837277, 8); (19166087, 8); (21091908, 8); (23027867, 8); (9994422, 8); (12149718, 8); (13830189, 8);
  (15525058, 8); (17025477, 8); (18599297, 8); (9994422, 8); (12790467, 8); (14684144, 8); (16526096, 8);
  (18126944, 8); (19788004, 8); (9994422, 8); (13475703, 8); (15635061, 8); (17674978, 8); (19419189, 8);
  (21210711, 8); (9994422, 8); (14165039, 8); (16619207, 8); (18887997, 8); (20802703, 8); (22752626, 8); (9994422, 8);
  (14813536, 8); (17563935, 8); (20068428, 8); (22161558, 8); (24279128, 8); (9994422, 8); (15375949, 8);
  (18395054, 8); (21116696, 8); (23375829, 8); (25650427, 8); (9994422, 8); (1581119, 7); (19044571, 8); (21941087, 8);
  (24334718, 8); (26737076, 8); (10695423, 8); (13169686, 8); (15112838, 8); (17062101, 8); (18780692, 8);
  (20578228, 8); (10695423, 8); (13858226, 8); (16044164, 8); (18166341, 8); (20006065, 8); (21911074, 8);
  (10695423, 8); (14608434, 8); (17103583, 8); (1946242, 7); (21476817, 8); (23543075, 8); (10695423, 8);
  (15373264, 8); (18215705, 8); (2085043, 7); (23073527, 8); (25335845, 8); (10695423, 8); (16099732, 8);
  (19293745, 8); (22213949, 8); (2465601, 7); (2712599, 7); (10695423, 8); (16734107, 8); (20248544, 8); (23432538, 8);
  (26078624, 8); (28743204, 8); (10695423, 8); (1722737, 7); (20998096, 8); (24394915, 8); (27206472, 8);
  (30029422, 8); (11398264, 8); (1415315, 7); (16335218, 8); (18518472, 8); (20439203, 8); (22445127, 8);
  (11398264, 8); (14875989, 8); (17325599, 8); (19704159, 8); (21764329, 8); (23895855, 8); (11398264, 8);
  (15676363, 8); (18472527, 8); (21121712, 8); (23384401, 8); (25704798, 8); (11398264, 8); (16501516, 8);
  (19690479, 8); (22657043, 8); (25162491, 8); (27712756, 8); (11398264, 8); (17291495, 8); (20880283, 8);
  (24176386, 8); (26936984, 8); (2973085, 7); (11398264, 8); (17985173, 8); (2193964, 7); (25540876, 8); (28539473, 8);
  (31561679, 8); (11398264, 8); (18526593, 8); (22774196, 8); (26621935, 8); (29813686, 8); (33021754, 8);
  (12090755, 8); (15098237, 8); (17500508, 8); (19901226, 8); (22010869, 8); (24212365, 8); (12090755, 8);
  (15847121, 8); (18538401, 8); (21154353, 8); (23419963, 8); (25763583, 8); (12090755, 8); (16688254, 8);
  (19759056, 8); (2267613, 7); (25169498, 8); (2772719, 7); (12090755, 8); (17563844, 8); (21067926, 8); (24339767, 8);
  (27106816, 8); (29925224, 8); (12090755, 8); (1840774, 7); (22354753, 8); (2599591, 7); (29050988, 8); (32145798, 8);
  (12090755, 8); (1915222, 7); (23505428, 8); (2748909, 7); (30813053, 8); (34167013, 8); (12090755, 8); (19735117, 8);
  (24414501, 8); (2867513, 7); (32217416, 8); (35782346, 8); (1276678, 7); (1600522, 7); (18612415, 8); (21216838, 8);
  (23504235, 8); (25890392, 8); (1276678, 7); (16774707, 8); (19689983, 8); (22527708, 8); (24986216, 8);
  (27529743, 8); (1276678, 7); (17650163, 8); (20974655, 8); (24141322, 8); (26850784, 8); (29631659, 8); (1276678, 7);
  (18569261, 8); (22363701, 8); (25919333, 8); (2893092, 7); (32001024, 8); (1276678, 7); (19460247, 8); (23736778, 8);
  (27698159, 8); (31028047, 8); (34404862, 8); (1276678, 7); (20249416, 8); (24969012, 8); (2930716, 7); (3293438, 7);
  (36598808, 8); (1276678, 7); (2086896, 7); (25944826, 8); (30587879, 8); (34456605, 8); (3835521, 7)].
(** tests/test_atm_correction_ir.py:16-35 *)
Definition d_satz : list (Z * Z) := [
  (4803, 2); (4803002, 5); (4803004, 5); (4803006, 5); (4803008, 5); (480301, 4); (4803012, 5); (4803014, 5);
  (4803016, 5); (4803018, 5); (4809, 2); (4809002, 5); (4809004, 5); (4809006, 5); (4809008, 5); (480901, 4);
  (4809012, 5); (4809014, 5); (4809016, 5); (4809018, 5); (4815, 2); (4815002, 5); (4815004, 5); (4815006, 5);
  (4815008, 5); (481501, 4); (4815012, 5); (4815014, 5); (4815016, 5); (4815018, 5); (4821, 2); (4821002, 5);
  (4821004, 5); (4821006, 5); (4821008, 5); (482101, 4); (4821012, 5); (4821014, 5); (4821016, 5); (4821018, 5);
  (4827, 2); (4827002, 5); (4827004, 5); (4827006, 5); (4827008, 5); (482701, 4); (4827012, 5); (4827014, 5);
  (4827016, 5); (4827018, 5); (4833, 2); (4833002, 5); (4833004, 5); (4833006, 5); (4833008, 5); (483301, 4);
  (4833012, 5); (4833014, 5); (4833016, 5); (4833018, 5); (4839, 2); (4839002, 5); (4839004, 5); (4839006, 5);
  (4839008, 5); (483901, 4); (4839012, 5); (4839014, 5); (4839016, 5); (4839018, 5); (4845, 2); (4845002, 5);
  (4845004, 5); (4845006, 5); (4845008, 5); (484501, 4); (4845012, 5); (4845014, 5); (4845016, 5); (4845018, 5);
  (4851, 2); (4851002, 5); (4851004, 5); (4851006, 5); (4851008, 5); (485101, 4); (4851012, 5); (4851014, 5);
  (4851016, 5); (4851018, 5); (4857, 2); (4857002, 5); (4857004, 5); (4857006, 5); (4857008, 5); (485701, 4);
  (4857012, 5); (4857014, 5); (4857016, 5); (4857018, 5)].
(** tests/test_atm_correction_ir.py:37-66 *)
Definition d_tbs : list (Z * Z) := [
  (28404, 2); (28404002667, 8); (28404005333, 8); (28404008, 5); (28404010667, 8); (28404013333, 8); (28404016, 5);
  (28404018667, 8); (28404021333, 8); (28404024, 5); (28412, 2); (28412002667, 8); (28412005333, 8); (28412008, 5);
  (28412010667, 8); (28412013333, 8); (28412016, 5); (28412018667, 8); (28412021333, 8); (28412024, 5); (2842, 1);
  (28420002667, 8); (28420005333, 8); (28420008, 5); (28420010667, 8); (28420013333, 8); (28420016, 5);
  (28420018667, 8); (28420021333, 8); (28420024, 5); (28428, 2); (28428002667, 8); (28428005333, 8); (28428008, 5);
  (28428010667, 8); (28428013333, 8); (28428016, 5); (28428018667, 8); (28428021333, 8); (28428024, 5); (28436, 2);
  (28436002667, 8); (28436005333, 8); (28436008, 5); (28436010667, 8); (28436013333, 8); (28436016, 5);
  (28436018667, 8); (28436021333, 8); (28436024, 5); (28444, 2); (28444002667, 8); (28444005333, 8); (28444008, 5);
  (28444010667, 8); (28444013333, 8); (28444016, 5); (28444018667, 8); (28444021333, 8); (28444024, 5); (28452, 2);
  (28452002667, 8); (28452005333, 8); (28452008, 5); (28452010667, 8); (28452013333, 8); (28452016, 5);
  (28452018667, 8); (28452021333, 8); (28452024, 5); (2846, 1); (28460002667, 8); (28460005333, 8); (28460008, 5);
  (28460010667, 8); (28460013333, 8); (28460016, 5); (28460018667, 8); (28460021333, 8); (28460024, 5); (28468, 2);
  (28468002667, 8); (28468005333, 8); (28468008, 5); (28468010667, 8); (28468013333, 8); (28468016, 5);
  (28468018667, 8); (28468021333, 8); (28468024, 5); (28476, 2); (28476002667, 8); (28476005333, 8); (28476008, 5);
  (28476010667, 8); (28476013333, 8); (28476016, 5); (28476018667, 8); (28476021333, 8); (28476024, 5)].
(** tests/test_atm_correction_ir.py:68-97 *)
Definition d_res : list (Z * Z) := [
  (28603159412, 8); (28603162417, 8); (28603165421, 8); (28603168426, 8); (2860317143, 7); (28603174434, 8);
  (28603177439, 8); (28603180443, 8); (28603183447, 8); (28603186452, 8); (28612174723, 8); (28612177729, 8);
  (28612180735, 8); (28612183741, 8); (28612186747, 8); (28612189752, 8); (28612192758, 8); (28612195764, 8);
  (2861219877, 7); (28612201776, 8); (28621194545, 8); (28621197552, 8); (2862120056, 7); (28621203567, 8);
  (28621206574, 8); (28621209582, 8); (28621212589, 8); (28621215597, 8); (28621218604, 8); (28621221611, 8);
  (28630218896, 8); (28630221905, 8); (28630224913, 8); (28630227922, 8); (28630230931, 8); (2863023394, 7);
  (28630236949, 8); (28630239958, 8); (28630242967, 8); (28630245976, 8); (28639247793, 8); (28639250803, 8);
  (28639253814, 8); (28639256824, 8); (28639259834, 8); (28639262845, 8); (28639265855, 8); (28639268866, 8);
  (28639271876, 8); (28639274886, 8); (28648281254, 8); (28648284266, 8); (28648287278, 8); (2864829029, 7);
  (28648293302, 8); (28648296314, 8); (28648299325, 8); (28648302337, 8); (28648305349, 8); (28648308361, 8);
  (28657319297, 8); (2865732231, 7); (28657325324, 8); (28657328337, 8); (28657331351, 8); (28657334364, 8);
  (28657337378, 8); (28657340391, 8); (28657343405, 8); (28657346418, 8); (2866636194, 7); (28666364955, 8);
  (2866636797, 7); (28666370985, 8); (28666374, 5); (28666377015, 8); (2866638003, 7); (28666383045, 8);
  (2866638606, 7); (28666389075, 8); (286754092, 6); (28675412216, 8); (28675415233, 8); (28675418249, 8);
  (28675421266, 8); (28675424283, 8); (28675427299, 8); (28675430316, 8); (28675433332, 8); (28675436349, 8);
  (28684461096, 8); (28684464114, 8); (28684467132, 8); (2868447015, 7); (28684473168, 8); (28684476186, 8);
  (28684479204, 8); (28684482222, 8); (2868448524, 7); (28684488258, 8)].
