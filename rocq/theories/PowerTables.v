(** * Powers of two at which 10^e lies between a half and one unit in the last place, written by scripts/gen_powers.py and checked in Powers.v *)

From Coq Require Import ZArith List.
Import ListNotations.
Open Scope Z_scope.

(** [(q, t)] for 10^0, 10^1, ...: [2^(q-53) <= 10^e < 2^(q-52)] and t is the integer part of [2^q / 10^e] *)
Definition upper_rows : list (Z * Z) := [
  (53, 9007199254740992);
  (56, 7205759403792793);
  (59, 5764607523034234);
  (62, 4611686018427387);
  (66, 7378697629483820);
  (69, 5902958103587056);
  (72, 4722366482869645);
  (76, 7555786372591432);
  (79, 6044629098073145);
  (82, 4835703278458516);
  (86, 7737125245533626);
  (89, 6189700196426901);
  (92, 4951760157141521);
  (96, 7922816251426433);
  (99, 6338253001141147);
  (102, 5070602400912917);
  (106, 8112963841460668);
  (109, 6490371073168534);
  (112, 5192296858534827);
  (116, 8307674973655724);
  (119, 6646139978924579);
  (122, 5316911983139663);
  (126, 8507059173023461);
  (129, 6805647338418769);
  (132, 5444517870735015);
  (136, 8711228593176024);
  (139, 6968982874540819);
  (142, 5575186299632655);
  (146, 8920298079412249);
  (149, 7136238463529799);
  (152, 5708990770823839);
  (155, 4567192616659071);
  (159, 7307508186654514);
  (162, 5846006549323611);
  (165, 4676805239458889);
  (169, 7482888383134222);
  (172, 5986310706507378);
  (175, 4789048565205902);
  (179, 7662477704329444);
  (182, 6129982163463555);
  (185, 4903985730770844);
  (189, 7846377169233350);
  (192, 6277101735386680);
  (195, 5021681388309344);
  (199, 8034690221294951);
  (202, 6427752177035961);
  (205, 5142201741628768);
  (209, 8227522786606030);
  (212, 6582018229284824);
  (215, 5265614583427859);
  (219, 8424983333484574);
  (222, 6739986666787659);
  (225, 5391989333430127);
  (229, 8627182933488204);
  (232, 6901746346790563);
  (235, 5521397077432451);
  (239, 8834235323891921);
  (242, 7067388259113537);
  (245, 5653910607290829);
  (248, 4523128485832663);
  (252, 7237005577332262);
  (255, 5789604461865809);
  (258, 4631683569492647);
  (262, 7410693711188236);
  (265, 5928554968950589);
  (268, 4742843975160471);
  (272, 7588550360256754);
  (275, 6070840288205403);
  (278, 4856672230564322);
  (282, 7770675568902916);
  (285, 6216540455122333);
  (288, 4973232364097866);
  (292, 7957171782556586);
  (295, 6365737426045269);
  (298, 5092589940836215);
  (302, 8148143905337944);
  (305, 6518515124270355);
  (308, 5214812099416284);
  (312, 8343699359066055);
  (315, 6674959487252844);
  (318, 5339967589802275);
  (322, 8543948143683640);
  (325, 6835158514946912);
  (328, 5468126811957529);
  (332, 8749002899132047);
  (335, 6999202319305638);
  (338, 5599361855444510);
  (342, 8958978968711216);
  (345, 7167183174968973);
  (348, 5733746539975178);
  (351, 4586997231980143);
  (355, 7339195571168228);
  (358, 5871356456934583);
  (361, 4697085165547666);
  (365, 7515336264876266);
  (368, 6012269011901013);
  (371, 4809815209520810);
  (375, 7695704335233296);
  (378, 6156563468186637);
  (381, 4925250774549309);
  (385, 7880401239278895);
  (388, 6304320991423116);
  (391, 5043456793138493);
  (395, 8069530869021589);
  (398, 6455624695217271);
  (401, 5164499756173817);
  (405, 8263199609878107);
  (408, 6610559687902485);
  (411, 5288447750321988);
  (415, 8461516400515182);
  (418, 6769213120412145);
  (421, 5415370496329716);
  (425, 8664592794127546);
  (428, 6931674235302037);
  (431, 5545339388241629);
  (435, 8872543021186607);
  (438, 7098034416949286);
  (441, 5678427533559428);
  (444, 4542742026847543);
  (448, 7268387242956068);
  (451, 5814709794364855);
  (454, 4651767835491884);
  (458, 7442828536787014);
  (461, 5954262829429611);
  (464, 4763410263543689);
  (468, 7621456421669902);
  (471, 6097165137335922);
  (474, 4877732109868737);
  (478, 7804371375789980);
  (481, 6243497100631984);
  (484, 4994797680505587);
  (488, 7991676288808940);
  (491, 6393341031047152);
  (494, 5114672824837721);
  (498, 8183476519740354);
  (501, 6546781215792283);
  (504, 5237424972633826);
  (508, 8379879956214123);
  (511, 6703903964971298);
  (514, 5363123171977038);
  (518, 8580997075163262);
  (521, 6864797660130609);
  (524, 5491838128104487);
  (528, 8786941004967180);
  (531, 7029552803973744);
  (534, 5623642243178995);
  (538, 8997827589086392);
  (541, 7198262071269114);
  (544, 5758609657015291);
  (547, 4606887725612233);
  (551, 7371020360979572);
  (554, 5896816288783658);
  (557, 4717453031026926);
  (561, 7547924849643082);
  (564, 6038339879714466);
  (567, 4830671903771572);
  (571, 7729075046034516);
  (574, 6183260036827613);
  (577, 4946608029462090);
  (581, 7914572847139345);
  (584, 6331658277711476);
  (587, 5065326622169180);
  (591, 8104522595470689);
  (594, 6483618076376551);
  (597, 5186894461101241);
  (601, 8299031137761985);
  (604, 6639224910209588);
  (607, 5311379928167670);
  (611, 8498207885068273);
  (614, 6798566308054618);
  (617, 5438853046443695);
  (621, 8702164874309912);
  (624, 6961731899447929);
  (627, 5569385519558343);
  (631, 8911016831293350);
  (634, 7128813465034680);
  (637, 5703050772027744);
  (640, 4562440617622195);
  (644, 7299904988195512);
  (647, 5839923990556409);
  (650, 4671939192445127);
  (654, 7475102707912204);
  (657, 5980082166329763);
  (660, 4784065733063810);
  (664, 7654505172902097);
  (667, 6123604138321678);
  (670, 4898883310657342);
  (674, 7838213297051747);
  (677, 6270570637641398);
  (680, 5016456510113118);
  (684, 8026330416180989);
  (687, 6421064332944791);
  (690, 5136851466355833);
  (694, 8218962346169333);
  (697, 6575169876935466);
  (700, 5260135901548373);
  (704, 8416217442477397);
  (707, 6732973953981918);
  (710, 5386379163185534);
  (714, 8618206661096855);
  (717, 6894565328877484);
  (720, 5515652263101987);
  (724, 8825043620963179);
  (727, 7060034896770543);
  (730, 5648027917416434);
  (733, 4518422333933147);
  (737, 7229475734293036);
  (740, 5783580587434429);
  (743, 4626864469947543);
  (747, 7402983151916069);
  (750, 5922386521532855);
  (753, 4737909217226284);
  (757, 7580654747562055);
  (760, 6064523798049644);
  (763, 4851619038439715);
  (767, 7762590461503544);
  (770, 6210072369202835);
  (773, 4968057895362268);
  (777, 7948892632579629);
  (780, 6359114106063703);
  (783, 5087291284850963);
  (787, 8139666055761540);
  (790, 6511732844609232);
  (793, 5209386275687386);
  (797, 8335018041099817);
  (800, 6668014432879854);
  (803, 5334411546303883);
  (807, 8535058474086213);
  (810, 6828046779268970);
  (813, 5462437423415176);
  (817, 8739899877464282);
  (820, 6991919901971426);
  (823, 5593535921577140);
  (827, 8949657474523425);
  (830, 7159725979618740);
  (833, 5727780783694992);
  (836, 4582224626955993);
  (840, 7331559403129590);
  (843, 5865247522503672);
  (846, 4692198018002937);
  (850, 7507516828804700);
  (853, 6006013463043760);
  (856, 4804810770435008);
  (860, 7687697232696013);
  (863, 6150157786156810);
  (866, 4920126228925448);
  (870, 7872201966280717);
  (873, 6297761573024573);
  (876, 5038209258419659);
  (880, 8061134813471454);
  (883, 6448907850777163);
  (886, 5159126280621730);
  (890, 8254602048994769);
  (893, 6603681639195815);
  (896, 5282945311356652);
  (900, 8452712498170643);
  (903, 6762169998536515);
  (906, 5409735998829212);
  (910, 8655577598126739);
  (913, 6924462078501391);
  (916, 5539569662801113);
  (920, 8863311460481781);
  (923, 7090649168385424);
  (926, 5672519334708339);
  (929, 4538015467766671);
  (933, 7260824748426675);
  (936, 5808659798741340);
  (939, 4646927838993072);
  (943, 7435084542388915);
  (946, 5948067633911132);
  (949, 4758454107128905);
  (953, 7613526571406249);
  (956, 6090821257124999);
  (959, 4872657005699999);
  (963, 7796251209119999);
  (966, 6237000967295999);
  (969, 4989600773836799);
  (973, 7983361238138879);
  (976, 6386688990511103);
  (979, 5109351192408882);
  (983, 8174961907854212);
  (986, 6539969526283369);
  (989, 5231975621026695);
  (993, 8371160993642713);
  (996, 6696928794914170);
  (999, 5357543035931336);
  (1003, 8572068857490138);
  (1006, 6857655085992110);
  (1009, 5486124068793688);
  (1013, 8777798510069901);
  (1016, 7022238808055921);
  (1019, 5617791046444737);
  (1023, 8988465674311579);
  (1026, 7190772539449263)].
(** the same for 10^-1, 10^-2, ... *)
Definition lower_rows : list (Z * Z) := [
  (49, 5629499534213120);
  (46, 7036874417766400);
  (43, 8796093022208000);
  (39, 5497558138880000);
  (36, 6871947673600000);
  (33, 8589934592000000);
  (29, 5368709120000000);
  (26, 6710886400000000);
  (23, 8388608000000000);
  (19, 5242880000000000);
  (16, 6553600000000000);
  (13, 8192000000000000);
  (9, 5120000000000000);
  (6, 6400000000000000);
  (3, 8000000000000000);
  (-1, 5000000000000000);
  (-4, 6250000000000000);
  (-7, 7812500000000000);
  (-11, 4882812500000000);
  (-14, 6103515625000000);
  (-17, 7629394531250000);
  (-21, 4768371582031250);
  (-24, 5960464477539062);
  (-27, 7450580596923828);
  (-31, 4656612873077392);
  (-34, 5820766091346740);
  (-37, 7275957614183425);
  (-41, 4547473508864641);
  (-44, 5684341886080801);
  (-47, 7105427357601001);
  (-50, 8881784197001252);
  (-54, 5551115123125782);
  (-57, 6938893903907228);
  (-60, 8673617379884035);
  (-64, 5421010862427522);
  (-67, 6776263578034402);
  (-70, 8470329472543003);
  (-74, 5293955920339377);
  (-77, 6617444900424221);
  (-80, 8271806125530276);
  (-84, 5169878828456422);
  (-87, 6462348535570528);
  (-90, 8077935669463160);
  (-94, 5048709793414475);
  (-97, 6310887241768094);
  (-100, 7888609052210118);
  (-104, 4930380657631323);
  (-107, 6162975822039154);
  (-110, 7703719777548943);
  (-114, 4814824860968089);
  (-117, 6018531076210112);
  (-120, 7523163845262640);
  (-124, 4701977403289150);
  (-127, 5877471754111437);
  (-130, 7346839692639296);
  (-134, 4591774807899560);
  (-137, 5739718509874450);
  (-140, 7174648137343063);
  (-143, 8968310171678829);
  (-147, 5605193857299268);
  (-150, 7006492321624085);
  (-153, 8758115402030106);
  (-157, 5473822126268816);
  (-160, 6842277657836020);
  (-163, 8552847072295026);
  (-167, 5345529420184391);
  (-170, 6681911775230489);
  (-173, 8352389719038111);
  (-177, 5220243574398819);
  (-180, 6525304467998524);
  (-183, 8156630584998155);
  (-187, 5097894115623847);
  (-190, 6372367644529809);
  (-193, 7965459555662261);
  (-197, 4978412222288913);
  (-200, 6223015277861141);
  (-203, 7778769097326427);
  (-207, 4861730685829016);
  (-210, 6077163357286271);
  (-213, 7596454196607838);
  (-217, 4747783872879899);
  (-220, 5934729841099874);
  (-223, 7418412301374842);
  (-227, 4636507688359276);
  (-230, 5795634610449095);
  (-233, 7244543263061369);
  (-237, 4527839539413356);
  (-240, 5659799424266695);
  (-243, 7074749280333369);
  (-246, 8843436600416711);
  (-250, 5527147875260444);
  (-253, 6908934844075555);
  (-256, 8636168555094444);
  (-260, 5397605346934027);
  (-263, 6747006683667534);
  (-266, 8433758354584418);
  (-270, 5271098971615261);
  (-273, 6588873714519077);
  (-276, 8236092143148846);
  (-280, 5147557589468028);
  (-283, 6434446986835036);
  (-286, 8043058733543795);
  (-290, 5026911708464871);
  (-293, 6283639635581089);
  (-296, 7854549544476362);
  (-300, 4909093465297726);
  (-303, 6136366831622158);
  (-306, 7670458539527697);
  (-310, 4794036587204811);
  (-313, 5992545734006013);
  (-316, 7490682167507517);
  (-320, 4681676354692198);
  (-323, 5852095443365247);
  (-326, 7315119304206559);
  (-330, 4571949565129099);
  (-333, 5714936956411374);
  (-336, 7143671195514218);
  (-339, 8929588994392773);
  (-343, 5580993121495483);
  (-346, 6976241401869354);
  (-349, 8720301752336692);
  (-353, 5450188595210432);
  (-356, 6812735744013041);
  (-359, 8515919680016301);
  (-363, 5322449800010188);
  (-366, 6653062250012735);
  (-369, 8316327812515919);
  (-373, 5197704882822449);
  (-376, 6497131103528062);
  (-379, 8121413879410077);
  (-383, 5075883674631298);
  (-386, 6344854593289123);
  (-389, 7931068241611403);
  (-393, 4956917651007127);
  (-396, 6196147063758909);
  (-399, 7745183829698636);
  (-403, 4840739893561647);
  (-406, 6050924866952059);
  (-409, 7563656083690074);
  (-413, 4727285052306296);
  (-416, 5909106315382870);
  (-419, 7386382894228588);
  (-423, 4616489308892867);
  (-426, 5770611636116084);
  (-429, 7213264545145106);
  (-433, 4508290340715691);
  (-436, 5635362925894614);
  (-439, 7044203657368267);
  (-442, 8805254571710334);
  (-446, 5503284107318959);
  (-449, 6879105134148698);
  (-452, 8598881417685873);
  (-456, 5374300886053671);
  (-459, 6717876107567088);
  (-462, 8397345134458860);
  (-466, 5248340709036788);
  (-469, 6560425886295985);
  (-472, 8200532357869981);
  (-476, 5125332723668738);
  (-479, 6406665904585922);
  (-482, 8008332380732403);
  (-486, 5005207737957752);
  (-489, 6256509672447190);
  (-492, 7820637090558987);
  (-496, 4887898181599367);
  (-499, 6109872726999209);
  (-502, 7637340908749011);
  (-506, 4773338067968132);
  (-509, 5966672584960165);
  (-512, 7458340731200206);
  (-516, 4661462957000129);
  (-519, 5826828696250161);
  (-522, 7283535870312701);
  (-526, 4552209918945438);
  (-529, 5690262398681798);
  (-532, 7112827998352247);
  (-535, 8891034997940309);
  (-539, 5556896873712693);
  (-542, 6946121092140867);
  (-545, 8682651365176083);
  (-549, 5426657103235052);
  (-552, 6783321379043815);
  (-555, 8479151723804769);
  (-559, 5299469827377980);
  (-562, 6624337284222476);
  (-565, 8280421605278095);
  (-569, 5175263503298809);
  (-572, 6469079379123511);
  (-575, 8086349223904389);
  (-579, 5053968264940243);
  (-582, 6317460331175304);
  (-585, 7896825413969130);
  (-589, 4935515883730706);
  (-592, 6169394854663383);
  (-595, 7711743568329229);
  (-599, 4819839730205768);
  (-602, 6024799662757210);
  (-605, 7530999578446512);
  (-609, 4706874736529070);
  (-612, 5883593420661338);
  (-615, 7354491775826672);
  (-619, 4596557359891670);
  (-622, 5745696699864588);
  (-625, 7182120874830735);
  (-628, 8977651093538418);
  (-632, 5611031933461511);
  (-635, 7013789916826889);
  (-638, 8767237396033612);
  (-642, 5479523372521007);
  (-645, 6849404215651259);
  (-648, 8561755269564074);
  (-652, 5351097043477546);
  (-655, 6688871304346933);
  (-658, 8361089130433666);
  (-662, 5225680706521041);
  (-665, 6532100883151301);
  (-668, 8165126103939127);
  (-672, 5103203814961954);
  (-675, 6379004768702443);
  (-678, 7973755960878054);
  (-682, 4983597475548783);
  (-685, 6229496844435979);
  (-688, 7786871055544974);
  (-692, 4866794409715609);
  (-695, 6083493012144511);
  (-698, 7604366265180639);
  (-702, 4752728915737899);
  (-705, 5940911144672374);
  (-708, 7426138930840468);
  (-712, 4641336831775292);
  (-715, 5801671039719115);
  (-718, 7252088799648894);
  (-722, 4532555499780559);
  (-725, 5665694374725698);
  (-728, 7082117968407123);
  (-731, 8852647460508904);
  (-735, 5532904662818065);
  (-738, 6916130828522581);
  (-741, 8645163535653227);
  (-745, 5403227209783266);
  (-748, 6754034012229083);
  (-751, 8442542515286354);
  (-755, 5276589072053971);
  (-758, 6595736340067464);
  (-761, 8244670425084330);
  (-765, 5152919015677706);
  (-768, 6441148769597133);
  (-771, 8051435961996416);
  (-775, 5032147476247760);
  (-778, 6290184345309700);
  (-781, 7862730431637125);
  (-785, 4914206519773203);
  (-788, 6142758149716504);
  (-791, 7678447687145630);
  (-795, 4799029804466019);
  (-798, 5998787255582523);
  (-801, 7498484069478154);
  (-805, 4686552543423846);
  (-808, 5858190679279808);
  (-811, 7322738349099760);
  (-815, 4576711468187350);
  (-818, 5720889335234187);
  (-821, 7151111669042734);
  (-824, 8938889586303418);
  (-828, 5586805991439636);
  (-831, 6983507489299545);
  (-834, 8729384361624432);
  (-838, 5455865226015270);
  (-841, 6819831532519087);
  (-844, 8524789415648859);
  (-848, 5327993384780537);
  (-851, 6659991730975671);
  (-854, 8324989663719589);
  (-858, 5203118539824743);
  (-861, 6503898174780929);
  (-864, 8129872718476161);
  (-868, 5081170449047600);
  (-871, 6351463061309501);
  (-874, 7939328826636876);
  (-878, 4962080516648047);
  (-881, 6202600645810059);
  (-884, 7753250807262574);
  (-888, 4845781754539109);
  (-891, 6057227193173886);
  (-894, 7571533991467358);
  (-898, 4732208744667098);
  (-901, 5915260930833873);
  (-904, 7394076163542341);
  (-908, 4621297602213963);
  (-911, 5776622002767454);
  (-914, 7220777503459318);
  (-918, 4512985939662073);
  (-921, 5641232424577592);
  (-924, 7051540530721990);
  (-927, 8814425663402488);
  (-931, 5509016039626555);
  (-934, 6886270049533193);
  (-937, 8607837561916492);
  (-941, 5379898476197807);
  (-944, 6724873095247259);
  (-947, 8406091369059074);
  (-951, 5253807105661921);
  (-954, 6567258882077401);
  (-957, 8209073602596752);
  (-961, 5130671001622970);
  (-964, 6413338752028712);
  (-967, 8016673440035891);
  (-971, 5010420900022431);
  (-974, 6263026125028039);
  (-977, 7828782656285049);
  (-981, 4892989160178156);
  (-984, 6116236450222695);
  (-987, 7645295562778369);
  (-991, 4778309726736480);
  (-994, 5972887158420600);
  (-997, 7466108948025751);
  (-1001, 4666318092516094);
  (-1004, 5832897615645117);
  (-1007, 7291122019556397);
  (-1011, 4556951262222748);
  (-1014, 5696189077778435);
  (-1017, 7120236347223044);
  (-1020, 8900295434028805)].
