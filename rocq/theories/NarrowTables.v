(** * Farey pairs around [10^e / 2^k], written by scripts/gen_narrow.py and checked in Narrow.v *)

From Coq Require Import ZArith List.
Import ListNotations.
Open Scope Z_scope.

(** for every [k] from -150 to 103: [(e, (p1, q1, p2, q2))] with [p1/q1 <= 10^e/2^k < p2/q2] *)
Definition farey_rows : list (Z * list (Z * (Z * Z * Z * Z))) := [
  (-150, [(-53, (4, 280259693, 1, 70064923)); (-52, (31, 217201262, 28, 196181785)); (-51, (435, 304782416, 56, 39236357)); (-50, (4415, 309336636, 2761, 193449253)); (-49, (25396, 177936879, 26503, 185693066)); (-48, (368828, 258419055, 132515, 92846533)); (-47, (1769059, 123948983, 4569521, 320163138)); (-46, (46139119, 323273383, 17246681, 120838738)); (-45, (402718496, 282164405, 86233405, 60419369))]);
  (-149, [(-46, (14446219, 202434645, 17246681, 241677476)); (-45, (201359248, 282164405, 86233405, 120838738))]);
  (-148, [(-45, (100679624, 282164405, 86233405, 241677476))]);
  (-147, [(-45, (50339812, 282164405, 35893593, 201190547)); (-44, (100679624, 56432881, 531846649, 298110357))]);
  (-146, [(-45, (25169906, 282164405, 10723687, 120216689)); (-44, (50339812, 56432881, 280147589, 314056309))]);
  (-145, [(-44, (25169906, 56432881, 129128153, 289515332))]);
  (-144, [(-44, (12584953, 56432881, 66203388, 296866259)); (-43, (125849530, 56432881, 708035991, 317494319))]);
  (-143, [(-44, (12584953, 112865762, 33101694, 296866259)); (-43, (62924765, 56432881, 330487401, 296391352))]);
  (-142, [(-44, (12584953, 225731524, 16550847, 296866259)); (-43, (62924765, 112865762, 133781318, 239958471))]);
  (-141, [(-43, (62924765, 225731524, 66890659, 239958471)); (-42, (833885521, 299141760, 259630848, 93137999))]);
  (-140, [(-43, (45078242, 323420525, 1982947, 14226947)); (-42, (444439249, 318869523, 129815424, 93137999))]);
  (-139, [(-43, (22539121, 323420525, 1982947, 28453894)); (-42, (184808401, 265187050, 64907712, 93137999))]);
  (-138, [(-42, (87446833, 250960103, 32453856, 93137999))]);
  (-137, [(-42, (54992977, 315644208, 16226928, 93137999)); (-41, (509346961, 292350818, 162269280, 93137999))]);
  (-136, [(-42, (22539121, 258736420, 8113464, 93137999)); (-41, (265943041, 305287639, 81134640, 93137999))]);
  (-135, [(-41, (144241081, 331161281, 40567320, 93137999))]);
  (-134, [(-41, (63106441, 289770566, 20283660, 93137999)); (-40, (590481601, 271135854, 202836600, 93137999))]);
  (-133, [(-41, (32680951, 300127135, 10141830, 93137999)); (-40, (286226701, 262857711, 101418300, 93137999))]);
  (-132, [(-41, (17468206, 320840273, 5070915, 93137999)); (-40, (134099251, 246301425, 50709150, 93137999))]);
  (-131, [(-40, (83390101, 306326852, 25354575, 93137999)); (-39, (894736501, 328674282, 253545750, 93137999))]);
  (-130, [(-40, (29017763, 213188853, 25354575, 186275998)); (-39, (387645001, 284796568, 126772875, 93137999))]);
  (-129, [(-40, (1831594, 26912855, 21691387, 318726286)); (-39, (130436063, 191658569, 126772875, 186275998))]);
  (-128, [(-39, (1831594, 5382571, 113951717, 334873999))]);
  (-127, [(-39, (915797, 5382571, 56256506, 330646025)); (-38, (383981813, 225684226, 508923094, 299118111))]);
  (-126, [(-39, (915797, 10765142, 28128253, 330646025)); (-38, (129520266, 152250341, 254461547, 299118111))]);
  (-125, [(-38, (64760133, 152250341, 124941281, 293735540))]);
  (-124, [(-38, (64760133, 304500682, 30090574, 141485199)); (-37, (448741946, 210997449, 573683227, 269744557))]);
  (-123, [(-38, (34669559, 326030966, 15045287, 141485199)); (-37, (224370973, 210997449, 349312254, 328491665))]);
  (-122, [(-38, (9812136, 184545767, 15045287, 282970398)); (-37, (49714846, 93503233, 174656127, 328491665))]);
  (-121, [(-37, (24857423, 93503233, 75226435, 282970398)); (-36, (772542611, 290598232, 174656127, 65698333))]);
  (-120, [(-37, (24857423, 187006466, 25184506, 189467165)); (-36, (298943242, 224899899, 174656127, 131396666))]);
  (-119, [(-37, (12265170, 184545767, 12592253, 189467165)); (-36, (149471621, 224899899, 174656127, 262793332))]);
  (-118, [(-36, (99102609, 298226066, 12592253, 37893433)); (-35, (473599369, 142518626, 673440002, 202655979))]);
  (-117, [(-36, (43255178, 260332633, 12592253, 75786866)); (-35, (473599369, 285037252, 336720001, 202655979))]);
  (-116, [(-36, (21627589, 260332633, 12592253, 151573732)); (-35, (68439684, 82381273, 268280317, 322930685))]);
  (-115, [(-35, (34219842, 82381273, 131400949, 316336278))]);
  (-114, [(-35, (17109921, 82381273, 62961265, 303147464)); (-34, (439379527, 211553547, 268280317, 129172274))]);
  (-113, [(-35, (17109921, 164762546, 22925672, 220766191)); (-34, (85549605, 82381273, 268280317, 258344548))]);
  (-112, [(-35, (17109921, 329525092, 11462836, 220766191)); (-34, (85549605, 164762546, 91365356, 175963275))]);
  (-111, [(-34, (85549605, 329525092, 45682678, 175963275)); (-33, (793209449, 305533166, 91365356, 35192655))]);
  (-110, [(-34, (39866927, 307123634, 22841339, 175963275)); (-33, (427748025, 329525092, 45682678, 35192655))]);
  (-109, [(-34, (8512794, 131160359, 14328545, 220766191)); (-33, (199334635, 307123634, 22841339, 35192655))]);
  (-108, [(-33, (88246648, 271930979, 22841339, 70385310)); (-32, (1088038531, 335277758, 22841339, 7038531))]);
  (-107, [(-33, (44123324, 271930979, 22841339, 140770620)); (-32, (532598596, 328239227, 22841339, 14077062))]);
  (-106, [(-33, (22061662, 271930979, 22841339, 281541240)); (-32, (266299298, 328239227, 22841339, 28154124))]);
  (-105, [(-32, (133149649, 328239227, 22841339, 56308248))]);
  (-104, [(-32, (55154155, 271930979, 22841339, 112616496)); (-31, (498611073, 245834239, 612817768, 302142487))]);
  (-103, [(-32, (16156408, 159314483, 22841339, 225232992)); (-31, (192202189, 189525991, 306408884, 302142487))]);
  (-102, [(-32, (8078204, 159314483, 14763135, 291151501)); (-31, (38997747, 76909495, 153204442, 302142487))]);
  (-101, [(-31, (38997747, 153818990, 76602221, 302142487)); (-30, (805019957, 317524386, 766022210, 302142487))]);
  (-100, [(-31, (38997747, 307637980, 18802237, 148323497)); (-30, (422008852, 332906285, 383011105, 302142487))]);
  (-99, [(-31, (10097755, 159314483, 18802237, 296646994)); (-30, (211004426, 332906285, 172006679, 271378689))]);
  (-98, [(-30, (105502213, 332906285, 66504466, 209851093)); (-29, (211004426, 66581257, 860033395, 271378689))]);
  (-97, [(-30, (38997747, 246110384, 33252233, 209851093)); (-29, (105502213, 66581257, 438024543, 276432350))]);
  (-96, [(-30, (2872757, 36259291, 24633962, 310924313)); (-29, (105502213, 133162514, 166261165, 209851093))]);
  (-95, [(-29, (105502213, 266325028, 30379476, 76688579))]);
  (-94, [(-29, (59932999, 302584319, 15189738, 76688579)); (-28, (527511065, 266325028, 241383902, 121867727))]);
  (-93, [(-29, (29553523, 298414322, 7594869, 76688579)); (-28, (286127163, 288914602, 120691951, 121867727))]);
  (-92, [(-28, (82717606, 167046875, 120691951, 243735454))]);
  (-91, [(-28, (41358803, 167046875, 79333148, 320424033)); (-27, (768894967, 310554204, 686177361, 277144829))]);
  (-90, [(-28, (41358803, 334093750, 39666574, 320424033)); (-27, (41358803, 33409375, 396665740, 320424033))]);
  (-89, [(-28, (1692229, 27339434, 19833287, 320424033)); (-27, (41358803, 66818750, 198332870, 320424033))]);
  (-88, [(-27, (41358803, 133637500, 99166435, 320424033)); (-26, (41358803, 13363750, 1033023153, 333787783))]);
  (-87, [(-27, (41358803, 267275000, 28903816, 186786533)); (-26, (41358803, 26727500, 495832175, 320424033))]);
  (-86, [(-27, (12454987, 160976934, 14451908, 186786533)); (-26, (41358803, 53455000, 227236686, 293696533))]);
  (-85, [(-26, (41358803, 106910000, 113618343, 293696533))]);
  (-84, [(-26, (41358803, 213820000, 36129770, 186786533)); (-25, (41358803, 21382000, 609450518, 315078533))]);
  (-83, [(-26, (23293918, 240853467, 18064885, 186786533)); (-25, (41358803, 42764000, 304725259, 315078533))]);
  (-82, [(-25, (41358803, 85528000, 131683228, 272314533))]);
  (-81, [(-25, (41358803, 171056000, 65841614, 272314533)); (-24, (41358803, 17105600, 782492549, 323631333))]);
  (-80, [(-25, (8437996, 69797467, 32920807, 272314533)); (-24, (41358803, 34211200, 370566873, 306525733))]);
  (-79, [(-25, (4218998, 69797467, 20263813, 335236665)); (-24, (41358803, 68422400, 164604035, 272314533))]);
  (-78, [(-24, (41358803, 136844800, 61622616, 203892133)); (-23, (41358803, 13684480, 988455387, 327052453))]);
  (-77, [(-24, (41358803, 273689600, 30811308, 203892133)); (-23, (41358803, 27368960, 473548292, 313367973))]);
  (-76, [(-24, (10547495, 139594934, 15405654, 203892133)); (-23, (41358803, 54737920, 236774146, 313367973))]);
  (-75, [(-23, (41358803, 109475840, 118387073, 313367973))]);
  (-74, [(-23, (41358803, 218951680, 38514135, 203892133)); (-22, (41358803, 21895168, 633294168, 335263141))]);
  (-73, [(-23, (1422334, 15059547, 31402465, 332486531)); (-22, (41358803, 43790336, 316647084, 335263141))]);
  (-72, [(-22, (41358803, 87580672, 158323542, 335263141))]);
  (-71, [(-22, (41358803, 175161344, 79161771, 335263141)); (-21, (688876311, 291750466, 241041148, 102084897))]);
  (-70, [(-22, (22457319, 190220891, 18901484, 160101797)); (-21, (327314589, 277246241, 120520574, 102084897))]);
  (-69, [(-22, (13006577, 220339985, 9450742, 160101797)); (-21, (146533728, 248237791, 60260287, 102084897))]);
  (-68, [(-21, (73266864, 248237791, 60260287, 204169794)); (-20, (869657172, 294651311, 301301435, 102084897))]);
  (-67, [(-21, (36633432, 248237791, 23626855, 160101797)); (-20, (434828586, 294651311, 301301435, 204169794))]);
  (-66, [(-21, (18316716, 248237791, 23626855, 320203594)); (-20, (217414293, 294651311, 83887142, 113688277))]);
  (-65, [(-20, (91583580, 248237791, 41943571, 113688277))]);
  (-64, [(-20, (45791790, 248237791, 41943571, 227376554)); (-19, (175470722, 95122869, 560659299, 303934015))]);
  (-63, [(-20, (22895895, 248237791, 19047676, 206515317)); (-19, (87735361, 95122869, 297453216, 322499423))]);
  (-62, [(-19, (87735361, 190245738, 148726608, 322499423))]);
  (-61, [(-19, (13372057, 57992053, 74363304, 322499423)); (-18, (499668052, 216696475, 560659299, 243147212))]);
  (-60, [(-19, (13372057, 115984106, 37181652, 322499423)); (-18, (249834026, 216696475, 310825273, 269597949))]);
  (-59, [(-19, (13372057, 231968212, 18590826, 322499423)); (-18, (124917013, 216696475, 185908260, 322499423))]);
  (-58, [(-18, (31962883, 110893527, 92954130, 322499423)); (-17, (124917013, 43339295, 929541300, 322499423))]);
  (-57, [(-18, (31962883, 221787054, 46477065, 322499423)); (-17, (124917013, 86678590, 464770650, 322499423))]);
  (-56, [(-18, (17448701, 242149370, 7257091, 100712369)); (-17, (124917013, 173357180, 232385325, 322499423))]);
  (-55, [(-17, (71182857, 197572117, 53734156, 149142243))]);
  (-54, [(-17, (44315779, 246001991, 26867078, 149142243)); (-16, (124917013, 69342872, 518504806, 287827987))]);
  (-53, [(-17, (17448701, 193719496, 13433539, 149142243)); (-16, (124917013, 138685744, 259252403, 287827987))]);
  (-52, [(-16, (124917013, 277371488, 67167695, 149142243))]);
  (-51, [(-16, (28874659, 128229245, 67167695, 298284486)); (-15, (624585065, 277371488, 566835747, 251725639))]);
  (-50, [(-16, (28874659, 256458490, 19146518, 170055241)); (-15, (28874659, 25645849, 364713134, 323930335))]);
  (-49, [(-16, (9728141, 172806498, 9573259, 170055241)); (-15, (28874659, 51291698, 182356567, 323930335))]);
  (-48, [(-15, (28874659, 102583396, 76740954, 272638637)); (-14, (326729862, 116077765, 835816291, 296941597))]);
  (-47, [(-15, (28874659, 205166792, 38370477, 272638637)); (-14, (163364931, 116077765, 345721498, 245649899))]);
  (-46, [(-15, (19378841, 275389894, 4747909, 67471845)); (-14, (163364931, 232155530, 172860749, 245649899))]);
  (-45, [(-14, (115885841, 329367370, 4747909, 13494369))]);
  (-44, [(-14, (55568966, 315873001, 4747909, 26988738)); (-13, (163364931, 92862212, 513834338, 292081005))]);
  (-43, [(-14, (27784483, 315873001, 4747909, 53977476)); (-13, (163364931, 185724424, 256917169, 292081005))]);
  (-42, [(-13, (116588812, 265092267, 46776119, 106356581))]);
  (-41, [(-13, (58294406, 265092267, 46776119, 212713162)); (-12, (536870912, 244140625, 256917169, 116832402))]);
  (-40, [(-13, (29147203, 265092267, 17628916, 160334057)); (-12, (268435456, 244140625, 256917169, 233664804))]);
  (-39, [(-13, (11518287, 209516420, 8814458, 160334057)); (-12, (134217728, 244140625, 122699441, 223188983))]);
  (-38, [(-12, (67108864, 244140625, 55590577, 202237341)); (-11, (134217728, 48828125, 881932661, 320845233))]);
  (-37, [(-12, (33554432, 244140625, 22036145, 160334057)); (-11, (67108864, 48828125, 412170613, 299893591))]);
  (-36, [(-12, (16777216, 244140625, 22036145, 320668114)); (-11, (33554432, 48828125, 210844021, 306818432))]);
  (-35, [(-11, (16777216, 48828125, 110180725, 320668114))]);
  (-34, [(-11, (8388608, 48828125, 51460469, 299539353)); (-10, (16777216, 9765625, 567680841, 330433739))]);
  (-33, [(-11, (4194304, 48828125, 26294645, 306109956)); (-10, (8388608, 9765625, 282468169, 328836228))]);
  (-32, [(-10, (4194304, 9765625, 144056137, 335406831))]);
  (-31, [(-10, (2097152, 9765625, 70655817, 329016787)); (-9, (4194304, 1953125, 720280685, 335406831))]);
  (-30, [(-10, (1048576, 9765625, 36052809, 335767949)); (-9, (2097152, 1953125, 359570541, 334876162))]);
  (-29, [(-10, (524288, 9765625, 17702729, 329739023)); (-9, (1048576, 1953125, 180264045, 335767949))]);
  (-28, [(-9, (524288, 1953125, 90086509, 335598398)); (-8, (1048576, 390625, 901320225, 335767949))]);
  (-27, [(-9, (262144, 1953125, 44997741, 335259296)); (-8, (524288, 390625, 450956833, 335989023))]);
  (-26, [(-9, (131072, 1953125, 22453357, 334581092)); (-8, (262144, 390625, 225250849, 335649921))]);
  (-25, [(-8, (131072, 390625, 112660001, 335752967)); (-7, (262144, 78125, 1127302821, 335962421))]);
  (-24, [(-8, (65536, 390625, 56364577, 335959059)); (-7, (131072, 78125, 563693221, 335987342))]);
  (-23, [(-8, (32768, 390625, 28184097, 335980618)); (-7, (65536, 78125, 281822885, 335959059))]);
  (-22, [(-7, (32768, 78125, 140920485, 335980618))]);
  (-21, [(-7, (16384, 78125, 70452901, 335945611)); (-6, (32768, 15625, 704635193, 335996243))]);
  (-20, [(-7, (8192, 78125, 35227301, 335953722)); (-6, (16384, 15625, 352313657, 335992486))]);
  (-19, [(-7, (4096, 78125, 17614501, 335969944)); (-6, (8192, 15625, 176152889, 335984972))]);
  (-18, [(-6, (4096, 15625, 88076601, 335985569)); (-5, (8192, 3125, 880797213, 335997472))]);
  (-17, [(-6, (2048, 15625, 44038457, 335986763)); (-5, (4096, 3125, 440399389, 335998069))]);
  (-16, [(-6, (1024, 15625, 22019385, 335989151)); (-5, (2048, 3125, 220200477, 335999263))]);
  (-15, [(-5, (1024, 3125, 110099997, 335998526)); (-4, (2048, 625, 1101004433, 335999888))]);
  (-14, [(-5, (512, 3125, 55049757, 335997052)); (-4, (1024, 625, 550502033, 335999776))]);
  (-13, [(-5, (256, 3125, 27524893, 335997229)); (-4, (512, 625, 275250833, 335999552))]);
  (-12, [(-4, (256, 625, 137625489, 335999729))]);
  (-11, [(-4, (128, 625, 68812689, 335999458)); (-3, (256, 125, 688127957, 335999979))]);
  (-10, [(-4, (64, 625, 34406353, 335999541)); (-3, (128, 125, 344063957, 335999958))]);
  (-9, [(-4, (32, 625, 17203185, 335999707)); (-3, (64, 125, 172031957, 335999916))]);
  (-8, [(-3, (32, 125, 86015989, 335999957)); (-2, (64, 25, 860159977, 335999991))]);
  (-7, [(-3, (16, 125, 43007989, 335999914)); (-2, (32, 25, 430079977, 335999982))]);
  (-6, [(-3, (8, 125, 21503997, 335999953)); (-2, (16, 25, 215039993, 335999989))]);
  (-5, [(-2, (8, 25, 107519993, 335999978)); (-1, (16, 5, 1075199997, 335999999))]);
  (-4, [(-2, (4, 25, 53759997, 335999981)); (-1, (8, 5, 537599997, 335999998))]);
  (-3, [(-2, (2, 25, 26879999, 335999987)); (-1, (4, 5, 268799997, 335999996))]);
  (-2, [(-1, (2, 5, 134399999, 335999997))]);
  (-1, [(-1, (1, 5, 67200000, 335999999)); (0, (2, 1, 671999999, 335999999))]);
  (0, [(-1, (1, 10, 33600000, 335999999)); (0, (1, 1, 336000000, 335999999))]);
  (1, [(-1, (1, 20, 16800000, 335999999)); (0, (1, 2, 168000000, 335999999))]);
  (2, [(0, (1, 4, 84000000, 335999999)); (1, (5, 2, 839999998, 335999999))]);
  (3, [(0, (1, 8, 42000000, 335999999)); (1, (5, 4, 419999999, 335999999))]);
  (4, [(0, (1, 16, 21000000, 335999999)); (1, (5, 8, 209999997, 335999995))]);
  (5, [(1, (5, 16, 104999996, 335999987)); (2, (25, 8, 1049999997, 335999999))]);
  (6, [(1, (5, 32, 52499998, 335999987)); (2, (25, 16, 524999986, 335999991))]);
  (7, [(1, (5, 64, 26249999, 335999987)); (2, (25, 32, 262499993, 335999991))]);
  (8, [(2, (25, 64, 131249984, 335999959))]);
  (9, [(2, (25, 128, 65624992, 335999959)); (3, (125, 64, 656249959, 335999979))]);
  (10, [(2, (25, 256, 32812496, 335999959)); (3, (125, 128, 328124917, 335999915))]);
  (11, [(3, (125, 256, 164062396, 335999787))]);
  (12, [(3, (125, 512, 82031198, 335999787)); (4, (625, 256, 820312146, 335999855))]);
  (13, [(3, (125, 1024, 41015599, 335999787)); (4, (625, 512, 410156073, 335999855))]);
  (14, [(3, (125, 2048, 20507737, 335998763)); (4, (625, 1024, 205077724, 335999343))]);
  (15, [(4, (625, 2048, 102538862, 335999343)); (5, (3125, 1024, 1025388974, 335999459))]);
  (16, [(4, (625, 4096, 51269431, 335999343)); (5, (3125, 2048, 512694487, 335999459))]);
  (17, [(4, (625, 8192, 25634403, 335995247)); (5, (3125, 4096, 256345681, 335997411))]);
  (18, [(5, (3125, 8192, 128171278, 335993315))]);
  (19, [(5, (3125, 16384, 64085639, 335993315)); (6, (15625, 8192, 640858778, 335994567))]);
  (20, [(5, (3125, 32768, 32041257, 335976931)); (6, (15625, 16384, 320429389, 335994567))]);
  (21, [(6, (15625, 32768, 160206882, 335978183))]);
  (22, [(6, (15625, 65536, 80103441, 335978183)); (7, (78125, 32768, 801050632, 335984987))]);
  (23, [(6, (15625, 131072, 40043908, 335912647)); (7, (78125, 65536, 400525316, 335984987))]);
  (24, [(6, (15625, 262144, 20021954, 335912647)); (7, (78125, 131072, 200262658, 335984987))]);
  (25, [(7, (78125, 262144, 100131329, 335984987)); (8, (390625, 131072, 1001356408, 335999455))]);
  (26, [(7, (78125, 524288, 50026602, 335722843)); (8, (390625, 262144, 500678204, 335999455))]);
  (27, [(7, (78125, 1048576, 25013301, 335722843)); (8, (390625, 524288, 250339102, 335999455))]);
  (28, [(8, (390625, 1048576, 125169551, 335999455))]);
  (29, [(8, (390625, 2097152, 62389463, 334950879)); (9, (1953125, 1048576, 625169551, 335635347))]);
  (30, [(8, (390625, 4194304, 30999419, 332853727)); (9, (1953125, 2097152, 311608213, 334586771))]);
  (31, [(9, (1953125, 4194304, 154827544, 332489619))]);
  (32, [(9, (1953125, 8388608, 77413772, 332489619)); (10, (9765625, 4194304, 777874419, 334094519))]);
  (33, [(9, (1953125, 16777216, 38706886, 332489619)); (10, (9765625, 8388608, 384054397, 329900215))]);
  (34, [(9, (1953125, 33554432, 19353443, 332489619)); (10, (9765625, 16777216, 187144386, 321511607))]);
  (35, [(10, (9765625, 33554432, 93572193, 321511607)); (11, (48828125, 16777216, 948863136, 326026891))]);
  (36, [(10, (9765625, 67108864, 41903284, 287957175)); (11, (48828125, 33554432, 474431568, 326026891))]);
  (37, [(10, (9765625, 134217728, 20951642, 287957175)); (11, (48828125, 67108864, 237215784, 326026891))]);
  (38, [(11, (48828125, 134217728, 118607892, 326026891))]);
  (39, [(11, (48828125, 268435456, 59303946, 326026891)); (12, (244140625, 134217728, 509232892, 279953743))]);
  (40, [(11, (19176152, 210844021, 29651973, 326026891)); (12, (244140625, 268435456, 254616446, 279953743))]);
  (41, [(12, (116832402, 256917169, 127308223, 279953743))]);
  (42, [(12, (58416201, 256917169, 68892022, 302990317)); (13, (477805429, 210141050, 371448848, 163364931))]);
  (43, [(12, (23970190, 210844021, 34446011, 302990317)); (13, (292081005, 256917169, 185724424, 163364931))]);
  (44, [(12, (11985095, 210844021, 10475821, 184292592)); (13, (106356581, 187104476, 92862212, 163364931))]);
  (45, [(13, (59925475, 210844021, 46431106, 163364931)); (14, (942116489, 331477771, 464311060, 163364931))]);
  (46, [(13, (36709922, 258323111, 23215553, 163364931)); (14, (245649899, 172860749, 232155530, 163364931))]);
  (47, [(13, (18354961, 258323111, 23215553, 326729862)); (14, (129572134, 182356567, 116077765, 163364931))]);
  (48, [(14, (64786067, 182356567, 116077765, 326729862))]);
  (49, [(14, (39140218, 220339839, 25645849, 144373295)); (15, (529097127, 297855203, 580388825, 326729862))]);
  (50, [(14, (19570109, 220339839, 25645849, 288746590)); (15, (298284486, 335838475, 25645849, 28874659))]);
  (51, [(15, (149142243, 335838475, 25645849, 57749318))]);
  (52, [(15, (61748197, 278089157, 25645849, 115498636)); (16, (703885219, 317001721, 277371488, 124917013))]);
  (53, [(15, (18051174, 162590521, 25645849, 230997272)); (16, (287827987, 259252403, 138685744, 124917013))]);
  (54, [(15, (9025587, 162590521, 16620262, 299404023)); (16, (149142243, 268670780, 69342872, 124917013))]);
  (55, [(16, (79799371, 287507534, 34671436, 124917013)); (17, (842570963, 303568182, 346714360, 124917013))]);
  (56, [(16, (45127935, 325181042, 17335718, 124917013)); (17, (322499423, 232385325, 173357180, 124917013))]);
  (57, [(16, (19124358, 275611045, 8667859, 124917013)); (17, (149142243, 214936624, 86678590, 124917013))]);
  (58, [(17, (105802948, 304956235, 43339295, 124917013))]);
  (59, [(17, (52901474, 304956235, 43339295, 249834026)); (18, (539195898, 310825273, 216696475, 124917013))]);
  (60, [(17, (26450737, 304956235, 16888558, 194711817)); (18, (269597949, 310825273, 216696475, 249834026))]);
  (61, [(18, (26450737, 60991247, 137344264, 316694311))]);
  (62, [(18, (26450737, 121982494, 68672132, 316694311)); (19, (702990899, 324197330, 190245738, 87735361))]);
  (63, [(18, (26450737, 243964988, 34336066, 316694311)); (19, (322499423, 297453216, 95122869, 87735361))]);
  (64, [(18, (9282704, 171235665, 17168033, 316694311)); (19, (113688277, 209717855, 95122869, 175470722))]);
  (65, [(19, (9282704, 34247133, 85840165, 316694311)); (20, (702990899, 259357864, 589302622, 217414293))]);
  (66, [(19, (4641352, 34247133, 44067997, 325164425)); (20, (408339588, 301301435, 294651311, 217414293))]);
  (67, [(19, (2320676, 34247133, 20861237, 307857520)); (20, (204169794, 301301435, 90481517, 133527151))]);
  (68, [(20, (102084897, 301301435, 90481517, 267054302))]);
  (69, [(20, (5801690, 34247133, 55671377, 328625806)); (21, (102084897, 60260287, 554492482, 327314589))]);
  (70, [(20, (2900845, 34247133, 26662927, 314780282)); (21, (102084897, 120520574, 277246241, 327314589))]);
  (71, [(21, (102084897, 241041148, 87580672, 206794015))]);
  (72, [(21, (58294561, 275288281, 43790336, 206794015)); (22, (598005157, 282399951, 685585829, 323758754))]);
  (73, [(21, (14504225, 136988532, 21895168, 206794015)); (22, (335263141, 316647084, 43790336, 41358803))]);
  (74, [(21, (14504225, 273977064, 10947584, 206794015)); (22, (160101797, 302423744, 21895168, 41358803))]);
  (75, [(22, (83468709, 315335867, 10947584, 41358803)); (23, (532319653, 201104679, 641795493, 242463482))]);
  (76, [(22, (39678373, 299801310, 5473792, 41358803)); (23, (422843813, 319491752, 54737920, 41358803))]);
  (77, [(22, (20520101, 310090999, 2736896, 41358803)); (23, (203892133, 308113080, 27368960, 41358803))]);
  (78, [(23, (108100773, 326714539, 13684480, 41358803)); (24, (614426533, 185699025, 751271333, 227057828))]);
  (79, [(23, (53362853, 322558654, 6842240, 41358803)); (24, (546004133, 330039247, 68422400, 41358803))]);
  (80, [(23, (25993893, 314246884, 3421120, 41358803)); (24, (272314533, 329208070, 34211200, 41358803))]);
  (81, [(24, (135469733, 327545716, 17105600, 41358803))]);
  (82, [(24, (67047333, 324221008, 8552800, 41358803)); (25, (614426533, 297118440, 85528000, 41358803))]);
  (83, [(24, (32836133, 317571592, 4276400, 41358803)); (25, (315078533, 304725259, 42764000, 41358803))]);
  (84, [(24, (15730533, 304272760, 2138200, 41358803)); (25, (165404533, 319938897, 21382000, 41358803))]);
  (85, [(25, (79876533, 309007370, 10691000, 41358803)); (26, (614426533, 237694752, 721336533, 279053555))]);
  (86, [(25, (42458033, 328503119, 5345500, 41358803)); (26, (400606533, 309954292, 53455000, 41358803))]);
  (87, [(25, (21076033, 326135814, 2672750, 41358803)); (26, (213514033, 330396963, 26727500, 41358803))]);
  (88, [(26, (106604033, 329923502, 13363750, 41358803)); (27, (587699033, 181884041, 721336533, 223242844))]);
  (89, [(26, (53149033, 328976580, 6681875, 41358803)); (27, (520880283, 322409279, 66818750, 41358803))]);
  (90, [(26, (23233579, 287617777, 6681875, 82717606)); (27, (253605283, 313948134, 33409375, 41358803))]);
  (91, [(27, (110097954, 272589331, 33409375, 82717606))]);
  (92, [(27, (55048977, 272589331, 33409375, 165435212)); (28, (243735454, 120691951, 654517783, 324101508))]);
  (93, [(27, (10819801, 107154119, 33409375, 330870424)); (28, (121867727, 120691951, 288914602, 286127163))]);
  (94, [(27, (10819801, 214308238, 11294787, 223716305)); (28, (121867727, 241383902, 144457301, 286127163))]);
  (95, [(28, (76688579, 303794760, 11294787, 44743261)); (29, (609338635, 241383902, 266325028, 105502213))]);
  (96, [(28, (32696896, 259051499, 11294787, 89486522)); (29, (343013607, 271763378, 133162514, 105502213))]);
  (97, [(28, (16348448, 259051499, 11294787, 178973044)); (29, (209851093, 332522330, 66581257, 105502213))]);
  (98, [(29, (71634918, 227020117, 66581257, 211004426)); (30, (875663663, 277508892, 332906285, 105502213))]);
  (99, [(29, (35817459, 227020117, 30763798, 194988735)); (30, (271378689, 172006679, 332906285, 211004426))]);
  (100, [(29, (20435560, 259051499, 15381899, 194988735)); (30, (240614891, 305015611, 30763798, 38997747))]);
  (101, [(30, (117559699, 298049246, 15381899, 38997747))]);
  (102, [(30, (51088900, 259051499, 15381899, 77995494)); (31, (302142487, 153204442, 379051982, 192202189))]);
  (103, [(30, (25544450, 259051499, 15381899, 155990988)); (31, (302142487, 306408884, 189525991, 192202189))])].

(** the decimals [s * 10^e], [10^7 <= s < 336000000], that come near an odd multiple of [2^k] without meeting it *)
Definition near_decimals : list (Z * Z) := [
  (193449253, -50); (185693066, -49); (320163138, -47); (120838738, -46); (241677476, -46); (93137999, -40); (186275998, -40); (93503233, -37); (187006466, -37); (82381273, -35); (164762546, -35); (329525092, -35); (175963275, -34); (35192655, -33); (70385310, -33); (140770620, -33); (14077062, -32); (281541240, -33); (28154124, -32); (56308248, -32); (112616496, -32); (225232992, -32); (148323497, -31); (296646994, -31); (209851093, -30); (320424033, -28); (186786533, -26); (272314533, -25); (248237791, -20); (265092267, -13); (326026891, 11); (163364931, 13); (326729862, 13); (144373295, 14); (288746590, 14); (28874659, 15); (57749318, 15); (115498636, 15); (230997272, 15); (316694311, 18); (124076409, 26); (206794015, 26); (248152818, 26); (41358803, 27); (82717606, 27); (165435212, 27); (330870424, 27)].
