(** Transcription of entries 0..16383 of RECIPROCAL, /repo/src/probability/div_lut.rs:19-4116
    (generated by tools/gen_div_lut.py). *)
From Verif Require Import Prelude.

(** RECIPROCAL8, /repo/src/probability/div_lut.rs:1-18 *)
Definition RECIPROCAL8 : list Z := [
  0; 16777217; 8388609; 5592406; 4194305; 3355444; 2796203; 2396746; 2097153; 1864136; 1677722; 1525202; 1398102; 1290556; 1198373; 1118482; 1048577; 986896; 932068; 883012; 838861; 798916; 762601; 729445; 699051; 671089; 645278; 621379; 599187; 578525; 559241; 541201; 524289; 508401; 493448; 479350; 466034; 453439; 441506; 430186; 419431; 409201; 399458; 390168; 381301; 372828; 364723; 356963; 349526; 342393; 335545; 328966; 322639; 316552; 310690; 305041; 299594; 294338; 289263; 284360; 279621; 275037; 270601; 266306; 262145; 258112; 254201; 250407; 246724; 243149; 239675; 236299; 233017; 229825; 226720; 223697; 220753; 217886; 215093; 212370; 209716; 207127; 204601; 202136; 199729; 197380; 195084; 192842; 190651; 188509; 186414; 184366; 182362; 180401; 178482; 176603; 174763; 172961; 171197; 169467; 167773; 166112; 164483; 162886; 161320; 159784; 158276; 156797; 155345; 153920; 152521; 151147; 149797; 148471; 147169; 145889; 144632; 143396; 142180; 140986; 139811; 138655; 137519; 136401; 135301; 134218; 133153; 132105; 131073; 130056; 129056; 128071; 127101; 126145; 125204; 124276; 123362; 122462; 121575; 120700; 119838; 118988; 118150; 117324; 116509; 115705; 114913; 114131; 113360; 112599; 111849; 111108; 110377; 109656; 108943; 108241; 107547; 106862; 106185; 105518; 104858; 104207; 103564; 102928; 102301; 101681; 101068; 100463; 99865; 99274; 98690; 98113; 97542; 96979; 96421; 95870; 95326; 94787; 94255; 93728; 93207; 92692; 92183; 91679; 91181; 90688; 90201; 89718; 89241; 88769; 88302; 87839; 87382; 86929; 86481; 86038; 85599; 85164; 84734; 84308; 83887; 83469; 83056; 82647; 82242; 81841; 81443; 81050; 80660; 80274; 79892; 79513; 79138; 78767; 78399; 78034; 77673; 77315; 76960; 76609; 76261; 75916; 75574; 75235; 74899; 74566; 74236; 73909; 73585; 73263; 72945; 72629; 72316; 72006; 71698; 71393; 71090; 70790; 70493; 70198; 69906; 69616; 69328; 69043; 68760; 68479; 68201; 67924; 67651; 67379; 67109; 66842; 66577; 66314; 66053; 65794].

(** entries 0..2047 *)
Definition RECIPROCAL_0 : list (Z * Z) := [
(0,0); (2147483649,0); (2147483649,1); (715827883,1); (2147483649,2); (1288490189,2); (715827883,2); (306783379,2);
(2147483649,3); (1670265060,3); (1288490189,3); (976128931,3); (715827883,3); (495573150,3); (306783379,3); (143165577,3);
(2147483649,4); (1894838513,4); (1670265060,4); (1469330918,4); (1288490189,4); (1124872388,4); (976128931,4); (840319689,4);
(715827883,4); (601295422,4); (495573150,4); (397682158,4); (306783379,4); (222153481,4); (143165577,4); (69273667,4);
(2147483649,5); (2017333124,5); (1894838513,5); (1779343595,5); (1670265060,5); (1567082663,5); (1469330918,5); (1376592083,5);
(1288490189,5); (1204685949,5); (1124872388,5); (1048771084,5); (976128931,5); (906715319,5); (840319689,5); (776749405,5);
(715827883,5); (657392954,5); (601295422,5); (547397793,5); (495573150,5); (445704154,5); (397682158,5); (351406416,5);
(306783379,5); (263726063,5); (222153481,5); (181990140,5); (143165577,5); (105613950,5); (69273667,5); (34087043,5);
(2147483649,6); (2081407229,6); (2017333124,6); (1955171680,6); (1894838513,6); (1836254134,6); (1779343595,6); (1724036169,6);
(1670265060,6); (1617967133,6); (1567082663,6); (1517555112,6); (1469330918,6); (1422359300,6); (1376592083,6); (1331983529,6);
(1288490189,6); (1246070759,6); (1204685949,6); (1164298364,6); (1124872388,6); (1086374081,6); (1048771084,6); (1012032524,6);
(976128931,6); (941032161,6); (906715319,6); (873152693,6); (840319689,6); (808192771,6); (776749405,6); (745968005,6);
(715827883,6); (686309208,6); (657392954,6); (629060867,6); (601295422,6); (574079788,6); (547397793,6); (521233896,6);
(495573150,6); (470401181,6); (445704154,6); (421468754,6); (397682158,6); (374332013,6); (351406416,6); (328893893,6);
(306783379,6); (285064202,6); (263726063,6); (242759022,6); (222153481,6); (201900173,6); (181990140,6); (162414730,6);
(143165577,6); (124234592,6); (105613950,6); (87296084,6); (69273667,6); (51539608,6); (34087043,6); (16909321,6);
(2147483649,7); (2114189328,7); (2081407229,7); (2049125619,7); (2017333124,7); (1986018713,7); (1955171680,7); (1924781641,7);
(1894838513,7); (1865332512,7); (1836254134,7); (1807594150,7); (1779343595,7); (1751493756,7); (1724036169,7); (1696962603,7);
(1670265060,7); (1643935759,7); (1617967133,7); (1592351821,7); (1567082663,7); (1542152687,7); (1517555112,7); (1493283332,7);
(1469330918,7); (1445691607,7); (1422359300,7); (1399328055,7); (1376592083,7); (1354145740,7); (1331983529,7); (1310100088,7);
(1288490189,7); (1267148737,7); (1246070759,7); (1225251407,7); (1204685949,7); (1184369770,7); (1164298364,7); (1144467334,7);
(1124872388,7); (1105509334,7); (1086374081,7); (1067462633,7); (1048771084,7); (1030295624,7); (1012032524,7); (993978146,7);
(976128931,7); (958481403,7); (941032161,7); (923777883,7); (906715319,7); (889841291,7); (873152693,7); (856646483,7);
(840319689,7); (824169401,7); (808192771,7); (792387015,7); (776749405,7); (761277273,7); (745968005,7); (730819043,7);
(715827883,7); (700992072,7); (686309208,7); (671776937,7); (657392954,7); (643155002,7); (629060867,7); (615108382,7);
(601295422,7); (587619904,7); (574079788,7); (560673071,7); (547397793,7); (534252030,7); (521233896,7); (508341540,7);
(495573150,7); (482926945,7); (470401181,7); (457994143,7); (445704154,7); (433529563,7); (421468754,7); (409520138,7);
(397682158,7); (385953283,7); (374332013,7); (362816873,7); (351406416,7); (340099221,7); (328893893,7); (317789061,7);
(306783379,7); (295875525,7); (285064202,7); (274348132,7); (263726063,7); (253196762,7); (242759022,7); (232411651,7);
(222153481,7); (211983365,7); (201900173,7); (191902795,7); (181990140,7); (172161137,7); (162414730,7); (152749883,7);
(143165577,7); (133660808,7); (124234592,7); (114885957,7); (105613950,7); (96417634,7); (87296084,7); (78248393,7);
(69273667,7); (60371027,7); (51539608,7); (42778559,7); (34087043,7); (25464233,7); (16909321,7); (8421505,7);
(2147483649,8); (2130771713,8); (2114189328,8); (2097734993,8); (2081407229,8); (2065204582,8); (2049125619,8); (2033168930,8);
(2017333124,8); (2001616835,8); (1986018713,8); (1970537430,8); (1955171680,8); (1939920173,8); (1924781641,8); (1909754831,8);
(1894838513,8); (1880031473,8); (1865332512,8); (1850740454,8); (1836254134,8); (1821872409,8); (1807594150,8); (1793418244,8);
(1779343595,8); (1765369120,8); (1751493756,8); (1737716451,8); (1724036169,8); (1710451889,8); (1696962603,8); (1683567320,8);
(1670265060,8); (1657054857,8); (1643935759,8); (1630906826,8); (1617967133,8); (1605115765,8); (1592351821,8); (1579674413,8);
(1567082663,8); (1554575705,8); (1542152687,8); (1529812766,8); (1517555112,8); (1505378903,8); (1493283332,8); (1481267599,8);
(1469330918,8); (1457472509,8); (1445691607,8); (1433987453,8); (1422359300,8); (1410806410,8); (1399328055,8); (1387923516,8);
(1376592083,8); (1365333055,8); (1354145740,8); (1343029457,8); (1331983529,8); (1321007292,8); (1310100088,8); (1299261267,8);
(1288490189,8); (1277786221,8); (1267148737,8); (1256577120,8); (1246070759,8); (1235629053,8); (1225251407,8); (1214937233,8);
(1204685949,8); (1194496984,8); (1184369770,8); (1174303748,8); (1164298364,8); (1154353073,8); (1144467334,8); (1134640615,8);
(1124872388,8); (1115162132,8); (1105509334,8); (1095913485,8); (1086374081,8); (1076890628,8); (1067462633,8); (1058089611,8);
(1048771084,8); (1039506578,8); (1030295624,8); (1021137758,8); (1012032524,8); (1002979469,8); (993978146,8); (985028113,8);
(976128931,8); (967280171,8); (958481403,8); (949732205,8); (941032161,8); (932380856,8); (923777883,8); (915222837,8);
(906715319,8); (898254934,8); (889841291,8); (881474005,8); (873152693,8); (864876977,8); (856646483,8); (848460842,8);
(840319689,8); (832222661,8); (824169401,8); (816159554,8); (808192771,8); (800268706,8); (792387015,8); (784547360,8);
(776749405,8); (768992819,8); (761277273,8); (753602442,8); (745968005,8); (738373643,8); (730819043,8); (723303892,8);
(715827883,8); (708390710,8); (700992072,8); (693631670,8); (686309208,8); (679024393,8); (671776937,8); (664566551,8);
(657392954,8); (650255863,8); (643155002,8); (636090094,8); (629060867,8); (622067052,8); (615108382,8); (608184593,8);
(601295422,8); (594440611,8); (587619904,8); (580833047,8); (574079788,8); (567359878,8); (560673071,8); (554019123,8);
(547397793,8); (540808841,8); (534252030,8); (527727126,8); (521233896,8); (514772110,8); (508341540,8); (501941962,8);
(495573150,8); (489234884,8); (482926945,8); (476649116,8); (470401181,8); (464182927,8); (457994143,8); (451834621,8);
(445704154,8); (439602536,8); (433529563,8); (427485036,8); (421468754,8); (415480520,8); (409520138,8); (403587415,8);
(397682158,8); (391804176,8); (385953283,8); (380129290,8); (374332013,8); (368561267,8); (362816873,8); (357098648,8);
(351406416,8); (345739998,8); (340099221,8); (334483910,8); (328893893,8); (323328999,8); (317789061,8); (312273909,8);
(306783379,8); (301317305,8); (295875525,8); (290457878,8); (285064202,8); (279694339,8); (274348132,8); (269025425,8);
(263726063,8); (258449892,8); (253196762,8); (247966522,8); (242759022,8); (237574113,8); (232411651,8); (227271488,8);
(222153481,8); (217057488,8); (211983365,8); (206930973,8); (201900173,8); (196890825,8); (191902795,8); (186935944,8);
(181990140,8); (177065248,8); (172161137,8); (167277674,8); (162414730,8); (157572176,8); (152749883,8); (147947726,8);
(143165577,8); (138403313,8); (133660808,8); (128937942,8); (124234592,8); (119550637,8); (114885957,8); (110240434,8);
(105613950,8); (101006389,8); (96417634,8); (91847570,8); (87296084,8); (82763062,8); (78248393,8); (73751964,8);
(69273667,8); (64813390,8); (60371027,8); (55946468,8); (51539608,8); (47150340,8); (42778559,8); (38424161,8);
(34087043,8); (29767101,8); (25464233,8); (21178340,8); (16909321,8); (12657075,8); (8421505,8); (4202513,8);
(2147483649,9); (2139111393,9); (2130771713,9); (2122464422,9); (2114189328,9); (2105946247,9); (2097734993,9); (2089555381,9);
(2081407229,9); (2073290355,9); (2065204582,9); (2057149728,9); (2049125619,9); (2041132077,9); (2033168930,9); (2025236003,9);
(2017333124,9); (2009460125,9); (2001616835,9); (1993803086,9); (1986018713,9); (1978263549,9); (1970537430,9); (1962840195,9);
(1955171680,9); (1947531726,9); (1939920173,9); (1932336864,9); (1924781641,9); (1917254348,9); (1909754831,9); (1902282937,9);
(1894838513,9); (1887421409,9); (1880031473,9); (1872668556,9); (1865332512,9); (1858023193,9); (1850740454,9); (1843484148,9);
(1836254134,9); (1829050269,9); (1821872409,9); (1814720417,9); (1807594150,9); (1800493472,9); (1793418244,9); (1786368330,9);
(1779343595,9); (1772343903,9); (1765369120,9); (1758419115,9); (1751493756,9); (1744592911,9); (1737716451,9); (1730864246,9);
(1724036169,9); (1717232092,9); (1710451889,9); (1703695434,9); (1696962603,9); (1690253273,9); (1683567320,9); (1676904623,9);
(1670265060,9); (1663648511,9); (1657054857,9); (1650483979,9); (1643935759,9); (1637410080,9); (1630906826,9); (1624425882,9);
(1617967133,9); (1611530465,9); (1605115765,9); (1598722921,9); (1592351821,9); (1586002355,9); (1579674413,9); (1573367885,9);
(1567082663,9); (1560818638,9); (1554575705,9); (1548353757,9); (1542152687,9); (1535972392,9); (1529812766,9); (1523673707,9);
(1517555112,9); (1511456878,9); (1505378903,9); (1499321088,9); (1493283332,9); (1487265535,9); (1481267599,9); (1475289426,9);
(1469330918,9); (1463391977,9); (1457472509,9); (1451572417,9); (1445691607,9); (1439829983,9); (1433987453,9); (1428163923,9);
(1422359300,9); (1416573493,9); (1410806410,9); (1405057961,9); (1399328055,9); (1393616603,9); (1387923516,9); (1382248705,9);
(1376592083,9); (1370953561,9); (1365333055,9); (1359730476,9); (1354145740,9); (1348578762,9); (1343029457,9); (1337497740,9);
(1331983529,9); (1326486740,9); (1321007292,9); (1315545101,9); (1310100088,9); (1304672170,9); (1299261267,9); (1293867300,9);
(1288490189,9); (1283129856,9); (1277786221,9); (1272459207,9); (1267148737,9); (1261854733,9); (1256577120,9); (1251315820,9);
(1246070759,9); (1240841862,9); (1235629053,9); (1230432260,9); (1225251407,9); (1220086422,9); (1214937233,9); (1209803766,9);
(1204685949,9); (1199583713,9); (1194496984,9); (1189425693,9); (1184369770,9); (1179329145,9); (1174303748,9); (1169293510,9);
(1164298364,9); (1159318241,9); (1154353073,9); (1149402793,9); (1144467334,9); (1139546630,9); (1134640615,9); (1129749222,9);
(1124872388,9); (1120010046,9); (1115162132,9); (1110328583,9); (1105509334,9); (1100704322,9); (1095913485,9); (1091136758,9);
(1086374081,9); (1081625391,9); (1076890628,9); (1072169728,9); (1067462633,9); (1062769280,9); (1058089611,9); (1053423566,9);
(1048771084,9); (1044132108,9); (1039506578,9); (1034894436,9); (1030295624,9); (1025710083,9); (1021137758,9); (1016578591,9);
(1012032524,9); (1007499503,9); (1002979469,9); (998472369,9); (993978146,9); (989496746,9); (985028113,9); (980572193,9);
(976128931,9); (971698275,9); (967280171,9); (962874564,9); (958481403,9); (954100634,9); (949732205,9); (945376065,9);
(941032161,9); (936700442,9); (932380856,9); (928073353,9); (923777883,9); (919494394,9); (915222837,9); (910963161,9);
(906715319,9); (902479259,9); (898254934,9); (894042294,9); (889841291,9); (885651877,9); (881474005,9); (877307626,9);
(873152693,9); (869009158,9); (864876977,9); (860756100,9); (856646483,9); (852548079,9); (848460842,9); (844384727,9);
(840319689,9); (836265682,9); (832222661,9); (828190582,9); (824169401,9); (820159073,9); (816159554,9); (812170801,9);
(808192771,9); (804225420,9); (800268706,9); (796322585,9); (792387015,9); (788461954,9); (784547360,9); (780643191,9);
(776749405,9); (772865961,9); (768992819,9); (765129936,9); (761277273,9); (757434788,9); (753602442,9); (749780194,9);
(745968005,9); (742165834,9); (738373643,9); (734591393,9); (730819043,9); (727056556,9); (723303892,9); (719561014,9);
(715827883,9); (712104461,9); (708390710,9); (704686593,9); (700992072,9); (697307110,9); (693631670,9); (689965715,9);
(686309208,9); (682662113,9); (679024393,9); (675396013,9); (671776937,9); (668167128,9); (664566551,9); (660975172,9);
(657392954,9); (653819863,9); (650255863,9); (646700921,9); (643155002,9); (639618071,9); (636090094,9); (632571037,9);
(629060867,9); (625559550,9); (622067052,9); (618583341,9); (615108382,9); (611642144,9); (608184593,9); (604735696,9);
(601295422,9); (597863738,9); (594440611,9); (591026011,9); (587619904,9); (584222260,9); (580833047,9); (577452233,9);
(574079788,9); (570715680,9); (567359878,9); (564012352,9); (560673071,9); (557342005,9); (554019123,9); (550704396,9);
(547397793,9); (544099285,9); (540808841,9); (537526433,9); (534252030,9); (530985604,9); (527727126,9); (524476566,9);
(521233896,9); (517999087,9); (514772110,9); (511552937,9); (508341540,9); (505137891,9); (501941962,9); (498753724,9);
(495573150,9); (492400213,9); (489234884,9); (486077138,9); (482926945,9); (479784280,9); (476649116,9); (473521425,9);
(470401181,9); (467288357,9); (464182927,9); (461084864,9); (457994143,9); (454910738,9); (451834621,9); (448765769,9);
(445704154,9); (442649751,9); (439602536,9); (436562481,9); (433529563,9); (430503756,9); (427485036,9); (424473377,9);
(421468754,9); (418471143,9); (415480520,9); (412496860,9); (409520138,9); (406550331,9); (403587415,9); (400631365,9);
(397682158,9); (394739769,9); (391804176,9); (388875355,9); (385953283,9); (383037935,9); (380129290,9); (377227323,9);
(374332013,9); (371443335,9); (368561267,9); (365685787,9); (362816873,9); (359954500,9); (357098648,9); (354249294,9);
(351406416,9); (348569991,9); (345739998,9); (342916415,9); (340099221,9); (337288393,9); (334483910,9); (331685750,9);
(328893893,9); (326108316,9); (323328999,9); (320555921,9); (317789061,9); (315028397,9); (312273909,9); (309525577,9);
(306783379,9); (304047295,9); (301317305,9); (298593389,9); (295875525,9); (293163695,9); (290457878,9); (287758053,9);
(285064202,9); (282376303,9); (279694339,9); (277018288,9); (274348132,9); (271683850,9); (269025425,9); (266372835,9);
(263726063,9); (261085088,9); (258449892,9); (255820457,9); (253196762,9); (250578790,9); (247966522,9); (245359939,9);
(242759022,9); (240163753,9); (237574113,9); (234990085,9); (232411651,9); (229838791,9); (227271488,9); (224709724,9);
(222153481,9); (219602742,9); (217057488,9); (214517701,9); (211983365,9); (209454461,9); (206930973,9); (204412883,9);
(201900173,9); (199392826,9); (196890825,9); (194394154,9); (191902795,9); (189416730,9); (186935944,9); (184460420,9);
(181990140,9); (179525089,9); (177065248,9); (174610603,9); (172161137,9); (169716833,9); (167277674,9); (164843645,9);
(162414730,9); (159990912,9); (157572176,9); (155158505,9); (152749883,9); (150346296,9); (147947726,9); (145554158,9);
(143165577,9); (140781967,9); (138403313,9); (136029598,9); (133660808,9); (131296928,9); (128937942,9); (126583835,9);
(124234592,9); (121890197,9); (119550637,9); (117215895,9); (114885957,9); (112560808,9); (110240434,9); (107924820,9);
(105613950,9); (103307812,9); (101006389,9); (98709668,9); (96417634,9); (94130273,9); (91847570,9); (89569512,9);
(87296084,9); (85027272,9); (82763062,9); (80503440,9); (78248393,9); (75997905,9); (73751964,9); (71510556,9);
(69273667,9); (67041283,9); (64813390,9); (62589976,9); (60371027,9); (58156529,9); (55946468,9); (53740833,9);
(51539608,9); (49342782,9); (47150340,9); (44962270,9); (42778559,9); (40599194,9); (38424161,9); (36253448,9);
(34087043,9); (31924931,9); (29767101,9); (27613539,9); (25464233,9); (23319171,9); (21178340,9); (19041727,9);
(16909321,9); (14781107,9); (12657075,9); (10537212,9); (8421505,9); (6309943,9); (4202513,9); (2099203,9);
(2147483649,10); (2143293437,10); (2139111393,10); (2134937493,10); (2130771713,10); (2126614031,10); (2122464422,10); (2118322862,10);
(2114189328,10); (2110063798,10); (2105946247,10); (2101836653,10); (2097734993,10); (2093641243,10); (2089555381,10); (2085477383,10);
(2081407229,10); (2077344893,10); (2073290355,10); (2069243592,10); (2065204582,10); (2061173301,10); (2057149728,10); (2053133842,10);
(2049125619,10); (2045125038,10); (2041132077,10); (2037146715,10); (2033168930,10); (2029198699,10); (2025236003,10); (2021280818,10);
(2017333124,10); (2013392900,10); (2009460125,10); (2005534777,10); (2001616835,10); (1997706278,10); (1993803086,10); (1989907238,10);
(1986018713,10); (1982137490,10); (1978263549,10); (1974396869,10); (1970537430,10); (1966685212,10); (1962840195,10); (1959002357,10);
(1955171680,10); (1951348143,10); (1947531726,10); (1943722409,10); (1939920173,10); (1936124998,10); (1932336864,10); (1928555751,10);
(1924781641,10); (1921014513,10); (1917254348,10); (1913501127,10); (1909754831,10); (1906015441,10); (1902282937,10); (1898557301,10);
(1894838513,10); (1891126556,10); (1887421409,10); (1883723054,10); (1880031473,10); (1876346646,10); (1872668556,10); (1868997185,10);
(1865332512,10); (1861674521,10); (1858023193,10); (1854378510,10); (1850740454,10); (1847109006,10); (1843484148,10); (1839865864,10);
(1836254134,10); (1832648942,10); (1829050269,10); (1825458097,10); (1821872409,10); (1818293188,10); (1814720417,10); (1811154076,10);
(1807594150,10); (1804040621,10); (1800493472,10); (1796952685,10); (1793418244,10); (1789890131,10); (1786368330,10); (1782852824,10);
(1779343595,10); (1775840626,10); (1772343903,10); (1768853406,10); (1765369120,10); (1761891029,10); (1758419115,10); (1754953363,10);
(1751493756,10); (1748040277,10); (1744592911,10); (1741151641,10); (1737716451,10); (1734287324,10); (1730864246,10); (1727447199,10);
(1724036169,10); (1720631138,10); (1717232092,10); (1713839014,10); (1710451889,10); (1707070701,10); (1703695434,10); (1700326074,10);
(1696962603,10); (1693605008,10); (1690253273,10); (1686907382,10); (1683567320,10); (1680233072,10); (1676904623,10); (1673581957,10);
(1670265060,10); (1666953916,10); (1663648511,10); (1660348830,10); (1657054857,10); (1653766578,10); (1650483979,10); (1647207044,10);
(1643935759,10); (1640670109,10); (1637410080,10); (1634155657,10); (1630906826,10); (1627663572,10); (1624425882,10); (1621193740,10);
(1617967133,10); (1614746045,10); (1611530465,10); (1608320376,10); (1605115765,10); (1601916618,10); (1598722921,10); (1595534660,10);
(1592351821,10); (1589174391,10); (1586002355,10); (1582835700,10); (1579674413,10); (1576518479,10); (1573367885,10); (1570222617,10);
(1567082663,10); (1563948007,10); (1560818638,10); (1557694542,10); (1554575705,10); (1551462115,10); (1548353757,10); (1545250619,10);
(1542152687,10); (1539059949,10); (1535972392,10); (1532890002,10); (1529812766,10); (1526740673,10); (1523673707,10); (1520611858,10);
(1517555112,10); (1514503456,10); (1511456878,10); (1508415364,10); (1505378903,10); (1502347482,10); (1499321088,10); (1496299709,10);
(1493283332,10); (1490271945,10); (1487265535,10); (1484264091,10); (1481267599,10); (1478276048,10); (1475289426,10); (1472307720,10);
(1469330918,10); (1466359007,10); (1463391977,10); (1460429815,10); (1457472509,10); (1454520047,10); (1451572417,10); (1448629608,10);
(1445691607,10); (1442758402,10); (1439829983,10); (1436906337,10); (1433987453,10); (1431073318,10); (1428163923,10); (1425259253,10);
(1422359300,10); (1419464050,10); (1416573493,10); (1413687617,10); (1410806410,10); (1407929862,10); (1405057961,10); (1402190696,10);
(1399328055,10); (1396470028,10); (1393616603,10); (1390767769,10); (1387923516,10); (1385083831,10); (1382248705,10); (1379418126,10);
(1376592083,10); (1373770565,10); (1370953561,10); (1368141062,10); (1365333055,10); (1362529530,10); (1359730476,10); (1356935883,10);
(1354145740,10); (1351360037,10); (1348578762,10); (1345801905,10); (1343029457,10); (1340261405,10); (1337497740,10); (1334738452,10);
(1331983529,10); (1329232962,10); (1326486740,10); (1323744854,10); (1321007292,10); (1318274044,10); (1315545101,10); (1312820453,10);
(1310100088,10); (1307383997,10); (1304672170,10); (1301964597,10); (1299261267,10); (1296562172,10); (1293867300,10); (1291176643,10);
(1288490189,10); (1285807930,10); (1283129856,10); (1280455956,10); (1277786221,10); (1275120641,10); (1272459207,10); (1269801909,10);
(1267148737,10); (1264499682,10); (1261854733,10); (1259213882,10); (1256577120,10); (1253944435,10); (1251315820,10); (1248691265,10);
(1246070759,10); (1243454295,10); (1240841862,10); (1238233451,10); (1235629053,10); (1233028659,10); (1230432260,10); (1227839845,10);
(1225251407,10); (1222666936,10); (1220086422,10); (1217509858,10); (1214937233,10); (1212368538,10); (1209803766,10); (1207242906,10);
(1204685949,10); (1202132888,10); (1199583713,10); (1197038414,10); (1194496984,10); (1191959413,10); (1189425693,10); (1186895815,10);
(1184369770,10); (1181847549,10); (1179329145,10); (1176814547,10); (1174303748,10); (1171796738,10); (1169293510,10); (1166794055,10);
(1164298364,10); (1161806429,10); (1159318241,10); (1156833791,10); (1154353073,10); (1151876076,10); (1149402793,10); (1146933215,10);
(1144467334,10); (1142005142,10); (1139546630,10); (1137091790,10); (1134640615,10); (1132193095,10); (1129749222,10); (1127308989,10);
(1124872388,10); (1122439409,10); (1120010046,10); (1117584289,10); (1115162132,10); (1112743566,10); (1110328583,10); (1107917175,10);
(1105509334,10); (1103105053,10); (1100704322,10); (1098307136,10); (1095913485,10); (1093523361,10); (1091136758,10); (1088753668,10);
(1086374081,10); (1083997992,10); (1081625391,10); (1079256273,10); (1076890628,10); (1074528449,10); (1072169728,10); (1069814459,10);
(1067462633,10); (1065114242,10); (1062769280,10); (1060427739,10); (1058089611,10); (1055754889,10); (1053423566,10); (1051095633,10);
(1048771084,10); (1046449912,10); (1044132108,10); (1041817666,10); (1039506578,10); (1037198837,10); (1034894436,10); (1032593367,10);
(1030295624,10); (1028001198,10); (1025710083,10); (1023422273,10); (1021137758,10); (1018856533,10); (1016578591,10); (1014303923,10);
(1012032524,10); (1009764386,10); (1007499503,10); (1005237866,10); (1002979469,10); (1000724306,10); (998472369,10); (996223651,10);
(993978146,10); (991735847,10); (989496746,10); (987260837,10); (985028113,10); (982798567,10); (980572193,10); (978348983,10);
(976128931,10); (973912031,10); (971698275,10); (969487657,10); (967280171,10); (965075808,10); (962874564,10); (960676431,10);
(958481403,10); (956289473,10); (954100634,10); (951914880,10); (949732205,10); (947552602,10); (945376065,10); (943202587,10);
(941032161,10); (938864781,10); (936700442,10); (934539135,10); (932380856,10); (930225597,10); (928073353,10); (925924117,10);
(923777883,10); (921634644,10); (919494394,10); (917357127,10); (915222837,10); (913091517,10); (910963161,10); (908837764,10);
(906715319,10); (904595819,10); (902479259,10); (900365633,10); (898254934,10); (896147156,10); (894042294,10); (891940341,10);
(889841291,10); (887745139,10); (885651877,10); (883561501,10); (881474005,10); (879389381,10); (877307626,10); (875228731,10);
(873152693,10); (871079504,10); (869009158,10); (866941651,10); (864876977,10); (862815128,10); (860756100,10); (858699887,10);
(856646483,10); (854595882,10); (852548079,10); (850503068,10); (848460842,10); (846421397,10); (844384727,10); (842350826,10);
(840319689,10); (838291309,10); (836265682,10); (834242801,10); (832222661,10); (830205256,10); (828190582,10); (826178632,10);
(824169401,10); (822162883,10); (820159073,10); (818157965,10); (816159554,10); (814163835,10); (812170801,10); (810180449,10);
(808192771,10); (806207764,10); (804225420,10); (802245736,10); (800268706,10); (798294324,10); (796322585,10); (794353484,10);
(792387015,10); (790423174,10); (788461954,10); (786503351,10); (784547360,10); (782593975,10); (780643191,10); (778695003,10);
(776749405,10); (774806393,10); (772865961,10); (770928105,10); (768992819,10); (767060097,10); (765129936,10); (763202329,10);
(761277273,10); (759354760,10); (757434788,10); (755517350,10); (753602442,10); (751690058,10); (749780194,10); (747872844,10);
(745968005,10); (744065669,10); (742165834,10); (740268494,10); (738373643,10); (736481278,10); (734591393,10); (732703983,10);
(730819043,10); (728936569,10); (727056556,10); (725178999,10); (723303892,10); (721431233,10); (719561014,10); (717693233,10);
(715827883,10); (713964961,10); (712104461,10); (710246379,10); (708390710,10); (706537450,10); (704686593,10); (702838135,10);
(700992072,10); (699148399,10); (697307110,10); (695468202,10); (693631670,10); (691797509,10); (689965715,10); (688136282,10);
(686309208,10); (684484486,10); (682662113,10); (680842083,10); (679024393,10); (677209038,10); (675396013,10); (673585314,10);
(671776937,10); (669970876,10); (668167128,10); (666365688,10); (664566551,10); (662769714,10); (660975172,10); (659182920,10);
(657392954,10); (655605270,10); (653819863,10); (652036729,10); (650255863,10); (648477262,10); (646700921,10); (644926836,10);
(643155002,10); (641385415,10); (639618071,10); (637852965,10); (636090094,10); (634329453,10); (632571037,10); (630814843,10);
(629060867,10); (627309104,10); (625559550,10); (623812201,10); (622067052,10); (620324100,10); (618583341,10); (616844769,10);
(615108382,10); (613374175,10); (611642144,10); (609912284,10); (608184593,10); (606459065,10); (604735696,10); (603014483,10);
(601295422,10); (599578508,10); (597863738,10); (596151107,10); (594440611,10); (592732247,10); (591026011,10); (589321898,10);
(587619904,10); (585920026,10); (584222260,10); (582526601,10); (580833047,10); (579141592,10); (577452233,10); (575764966,10);
(574079788,10); (572396693,10); (570715680,10); (569036742,10); (567359878,10); (565685082,10); (564012352,10); (562341683,10);
(560673071,10); (559006513,10); (557342005,10); (555679543,10); (554019123,10); (552360742,10); (550704396,10); (549050081,10);
(547397793,10); (545747529,10); (544099285,10); (542453057,10); (540808841,10); (539166634,10); (537526433,10); (535888232,10);
(534252030,10); (532617822,10); (530985604,10); (529355373,10); (527727126,10); (526100858,10); (524476566,10); (522854246,10);
(521233896,10); (519615510,10); (517999087,10); (516384621,10); (514772110,10); (513161550,10); (511552937,10); (509946269,10);
(508341540,10); (506738749,10); (505137891,10); (503538963,10); (501941962,10); (500346883,10); (498753724,10); (497162481,10);
(495573150,10); (493985729,10); (492400213,10); (490816599,10); (489234884,10); (487655065,10); (486077138,10); (484501099,10);
(482926945,10); (481354674,10); (479784280,10); (478215762,10); (476649116,10); (475084338,10); (473521425,10); (471960373,10);
(470401181,10); (468843843,10); (467288357,10); (465734719,10); (464182927,10); (462632976,10); (461084864,10); (459538588,10);
(457994143,10); (456451528,10); (454910738,10); (453371770,10); (451834621,10); (450299289,10); (448765769,10); (447234058,10);
(445704154,10); (444176053,10); (442649751,10); (441125247,10); (439602536,10); (438081615,10); (436562481,10); (435045132,10);
(433529563,10); (432015773,10); (430503756,10); (428993512,10); (427485036,10); (425978325,10); (424473377,10); (422970187,10);
(421468754,10); (419969074,10); (418471143,10); (416974960,10); (415480520,10); (413987821,10); (412496860,10); (411007633,10);
(409520138,10); (408034372,10); (406550331,10); (405068013,10); (403587415,10); (402108533,10); (400631365,10); (399155907,10);
(397682158,10); (396210113,10); (394739769,10); (393271125,10); (391804176,10); (390338921,10); (388875355,10); (387413477,10);
(385953283,10); (384494770,10); (383037935,10); (381582776,10); (380129290,10); (378677473,10); (377227323,10); (375778837,10);
(374332013,10); (372886846,10); (371443335,10); (370001476,10); (368561267,10); (367122705,10); (365685787,10); (364250511,10);
(362816873,10); (361384870,10); (359954500,10); (358525761,10); (357098648,10); (355673160,10); (354249294,10); (352827047,10);
(351406416,10); (349987398,10); (348569991,10); (347154192,10); (345739998,10); (344327407,10); (342916415,10); (341507021,10);
(340099221,10); (338693012,10); (337288393,10); (335885359,10); (334483910,10); (333084041,10); (331685750,10); (330289035,10);
(328893893,10); (327500320,10); (326108316,10); (324717876,10); (323328999,10); (321941682,10); (320555921,10); (319171715,10);
(317789061,10); (316407955,10); (315028397,10); (313650382,10); (312273909,10); (310898975,10); (309525577,10); (308153712,10);
(306783379,10); (305414574,10); (304047295,10); (302681540,10); (301317305,10); (299954589,10); (298593389,10); (297233702,10);
(295875525,10); (294518857,10); (293163695,10); (291810036,10); (290457878,10); (289107217,10); (287758053,10); (286410382,10);
(285064202,10); (283719510,10); (282376303,10); (281034581,10); (279694339,10); (278355575,10); (277018288,10); (275682474,10);
(274348132,10); (273015258,10); (271683850,10); (270353907,10); (269025425,10); (267698401,10); (266372835,10); (265048723,10);
(263726063,10); (262404852,10); (261085088,10); (259766769,10); (258449892,10); (257134456,10); (255820457,10); (254507893,10);
(253196762,10); (251887062,10); (250578790,10); (249271944,10); (247966522,10); (246662521,10); (245359939,10); (244058773,10);
(242759022,10); (241460682,10); (240163753,10); (238868230,10); (237574113,10); (236281399,10); (234990085,10); (233700170,10);
(232411651,10); (231124525,10); (229838791,10); (228554446,10); (227271488,10); (225989915,10); (224709724,10); (223430914,10);
(222153481,10); (220877425,10); (219602742,10); (218329430,10); (217057488,10); (215786912,10); (214517701,10); (213249853,10);
(211983365,10); (210718235,10); (209454461,10); (208192041,10); (206930973,10); (205671254,10); (204412883,10); (203155856,10);
(201900173,10); (200645830,10); (199392826,10); (198141158,10); (196890825,10); (195641825,10); (194394154,10); (193147811,10);
(191902795,10); (190659102,10); (189416730,10); (188175679,10); (186935944,10); (185697525,10); (184460420,10); (183224625,10);
(181990140,10); (180756962,10); (179525089,10); (178294518,10); (177065248,10); (175837278,10); (174610603,10); (173385224,10);
(172161137,10); (170938340,10); (169716833,10); (168496611,10); (167277674,10); (166060020,10); (164843645,10); (163628550,10);
(162414730,10); (161202185,10); (159990912,10); (158780910,10); (157572176,10); (156364708,10); (155158505,10); (153953564,10);
(152749883,10); (151547461,10); (150346296,10); (149146384,10); (147947726,10); (146750318,10); (145554158,10); (144359245,10);
(143165577,10); (141973152,10); (140781967,10); (139592021,10); (138403313,10); (137215839,10); (136029598,10); (134844589,10);
(133660808,10); (132478256,10); (131296928,10); (130116824,10); (128937942,10); (127760280,10); (126583835,10); (125408606,10);
(124234592,10); (123061789,10); (121890197,10); (120719814,10); (119550637,10); (118382664,10); (117215895,10); (116050326,10);
(114885957,10); (113722785,10); (112560808,10); (111400025,10); (110240434,10); (109082033,10); (107924820,10); (106768793,10);
(105613950,10); (104460291,10); (103307812,10); (102156512,10); (101006389,10); (99857441,10); (98709668,10); (97563066,10);
(96417634,10); (95273370,10); (94130273,10); (92988340,10); (91847570,10); (90707961,10); (89569512,10); (88432220,10);
(87296084,10); (86161102,10); (85027272,10); (83894593,10); (82763062,10); (81632678,10); (80503440,10); (79375345,10);
(78248393,10); (77122580,10); (75997905,10); (74874367,10); (73751964,10); (72630694,10); (71510556,10); (70391547,10);
(69273667,10); (68156912,10); (67041283,10); (65926776,10); (64813390,10); (63701124,10); (62589976,10); (61479944,10);
(60371027,10); (59263222,10); (58156529,10); (57050945,10); (55946468,10); (54843098,10); (53740833,10); (52639670,10);
(51539608,10); (50440646,10); (49342782,10); (48246014,10); (47150340,10); (46055760,10); (44962270,10); (43869871,10);
(42778559,10); (41688334,10); (40599194,10); (39511137,10); (38424161,10); (37338266,10); (36253448,10); (35169708,10);
(34087043,10); (33005451,10); (31924931,10); (30845481,10); (29767101,10); (28689787,10); (27613539,10); (26538355,10);
(25464233,10); (24391173,10); (23319171,10); (22248228,10); (21178340,10); (20109507,10); (19041727,10); (17974999,10);
(16909321,10); (15844690,10); (14781107,10); (13718569,10); (12657075,10); (11596623,10); (10537212,10); (9478840,10);
(8421505,10); (7365207,10); (6309943,10); (5255712,10); (4202513,10); (3150343,10); (2099203,10); (1049089,10)].

(** entries 2048..4095 *)
Definition RECIPROCAL_1 : list (Z * Z) := [
(2147483649,11); (2145387520,11); (2143293437,11); (2141201395,11); (2139111393,11); (2137023426,11); (2134937493,11); (2132853590,11);
(2130771713,11); (2128691862,11); (2126614031,11); (2124538219,11); (2122464422,11); (2120392637,11); (2118322862,11); (2116255093,11);
(2114189328,11); (2112125564,11); (2110063798,11); (2108004027,11); (2105946247,11); (2103890457,11); (2101836653,11); (2099784833,11);
(2097734993,11); (2095687130,11); (2093641243,11); (2091597327,11); (2089555381,11); (2087515400,11); (2085477383,11); (2083441327,11);
(2081407229,11); (2079375085,11); (2077344893,11); (2075316651,11); (2073290355,11); (2071266003,11); (2069243592,11); (2067223119,11);
(2065204582,11); (2063187976,11); (2061173301,11); (2059160553,11); (2057149728,11); (2055140826,11); (2053133842,11); (2051128774,11);
(2049125619,11); (2047124375,11); (2045125038,11); (2043127607,11); (2041132077,11); (2039138448,11); (2037146715,11); (2035156877,11);
(2033168930,11); (2031182871,11); (2029198699,11); (2027216411,11); (2025236003,11); (2023257473,11); (2021280818,11); (2019306036,11);
(2017333124,11); (2015362080,11); (2013392900,11); (2011425583,11); (2009460125,11); (2007496524,11); (2005534777,11); (2003574881,11);
(2001616835,11); (1999660635,11); (1997706278,11); (1995753763,11); (1993803086,11); (1991854245,11); (1989907238,11); (1987962061,11);
(1986018713,11); (1984077190,11); (1982137490,11); (1980199610,11); (1978263549,11); (1976329302,11); (1974396869,11); (1972466246,11);
(1970537430,11); (1968610420,11); (1966685212,11); (1964761805,11); (1962840195,11); (1960920380,11); (1959002357,11); (1957086125,11);
(1955171680,11); (1953259020,11); (1951348143,11); (1949439046,11); (1947531726,11); (1945626181,11); (1943722409,11); (1941820407,11);
(1939920173,11); (1938021704,11); (1936124998,11); (1934230052,11); (1932336864,11); (1930445431,11); (1928555751,11); (1926667822,11);
(1924781641,11); (1922897205,11); (1921014513,11); (1919133561,11); (1917254348,11); (1915376871,11); (1913501127,11); (1911627115,11);
(1909754831,11); (1907884274,11); (1906015441,11); (1904148330,11); (1902282937,11); (1900419262,11); (1898557301,11); (1896697052,11);
(1894838513,11); (1892981682,11); (1891126556,11); (1889273132,11); (1887421409,11); (1885571383,11); (1883723054,11); (1881876418,11);
(1880031473,11); (1878188216,11); (1876346646,11); (1874506760,11); (1872668556,11); (1870832032,11); (1868997185,11); (1867164012,11);
(1865332512,11); (1863502683,11); (1861674521,11); (1859848025,11); (1858023193,11); (1856200022,11); (1854378510,11); (1852558655,11);
(1850740454,11); (1848923905,11); (1847109006,11); (1845295754,11); (1843484148,11); (1841674186,11); (1839865864,11); (1838059181,11);
(1836254134,11); (1834450722,11); (1832648942,11); (1830848791,11); (1829050269,11); (1827253371,11); (1825458097,11); (1823664444,11);
(1821872409,11); (1820081992,11); (1818293188,11); (1816505997,11); (1814720417,11); (1812936444,11); (1811154076,11); (1809373313,11);
(1807594150,11); (1805816587,11); (1804040621,11); (1802266250,11); (1800493472,11); (1798722284,11); (1796952685,11); (1795184673,11);
(1793418244,11); (1791653398,11); (1789890131,11); (1788128443,11); (1786368330,11); (1784609791,11); (1782852824,11); (1781097425,11);
(1779343595,11); (1777591329,11); (1775840626,11); (1774091485,11); (1772343903,11); (1770597877,11); (1768853406,11); (1767110488,11);
(1765369120,11); (1763629301,11); (1761891029,11); (1760154301,11); (1758419115,11); (1756685470,11); (1754953363,11); (1753222793,11);
(1751493756,11); (1749766252,11); (1748040277,11); (1746315831,11); (1744592911,11); (1742871515,11); (1741151641,11); (1739433287,11);
(1737716451,11); (1736001131,11); (1734287324,11); (1732575030,11); (1730864246,11); (1729154970,11); (1727447199,11); (1725740933,11);
(1724036169,11); (1722332904,11); (1720631138,11); (1718930868,11); (1717232092,11); (1715534808,11); (1713839014,11); (1712144708,11);
(1710451889,11); (1708760553,11); (1707070701,11); (1705382328,11); (1703695434,11); (1702010016,11); (1700326074,11); (1698643603,11);
(1696962603,11); (1695283073,11); (1693605008,11); (1691928409,11); (1690253273,11); (1688579598,11); (1686907382,11); (1685236624,11);
(1683567320,11); (1681899471,11); (1680233072,11); (1678568124,11); (1676904623,11); (1675242568,11); (1673581957,11); (1671922789,11);
(1670265060,11); (1668608770,11); (1666953916,11); (1665300497,11); (1663648511,11); (1661997956,11); (1660348830,11); (1658701131,11);
(1657054857,11); (1655410007,11); (1653766578,11); (1652124569,11); (1650483979,11); (1648844804,11); (1647207044,11); (1645570696,11);
(1643935759,11); (1642302230,11); (1640670109,11); (1639039393,11); (1637410080,11); (1635782169,11); (1634155657,11); (1632530543,11);
(1630906826,11); (1629284503,11); (1627663572,11); (1626044033,11); (1624425882,11); (1622809118,11); (1621193740,11); (1619579745,11);
(1617967133,11); (1616355900,11); (1614746045,11); (1613137568,11); (1611530465,11); (1609924734,11); (1608320376,11); (1606717386,11);
(1605115765,11); (1603515509,11); (1601916618,11); (1600319089,11); (1598722921,11); (1597128112,11); (1595534660,11); (1593942564,11);
(1592351821,11); (1590762431,11); (1589174391,11); (1587587700,11); (1586002355,11); (1584418356,11); (1582835700,11); (1581254387,11);
(1579674413,11); (1578095777,11); (1576518479,11); (1574942515,11); (1573367885,11); (1571794586,11); (1570222617,11); (1568651977,11);
(1567082663,11); (1565514673,11); (1563948007,11); (1562382663,11); (1560818638,11); (1559255932,11); (1557694542,11); (1556134467,11);
(1554575705,11); (1553018255,11); (1551462115,11); (1549907282,11); (1548353757,11); (1546801536,11); (1545250619,11); (1543701003,11);
(1542152687,11); (1540605670,11); (1539059949,11); (1537515524,11); (1535972392,11); (1534430552,11); (1532890002,11); (1531350741,11);
(1529812766,11); (1528276078,11); (1526740673,11); (1525206550,11); (1523673707,11); (1522142144,11); (1520611858,11); (1519082848,11);
(1517555112,11); (1516028648,11); (1514503456,11); (1512979533,11); (1511456878,11); (1509935489,11); (1508415364,11); (1506896503,11);
(1505378903,11); (1503862563,11); (1502347482,11); (1500833657,11); (1499321088,11); (1497809772,11); (1496299709,11); (1494790896,11);
(1493283332,11); (1491777015,11); (1490271945,11); (1488768119,11); (1487265535,11); (1485764193,11); (1484264091,11); (1482765227,11);
(1481267599,11); (1479771207,11); (1478276048,11); (1476782122,11); (1475289426,11); (1473797959,11); (1472307720,11); (1470818706,11);
(1469330918,11); (1467844352,11); (1466359007,11); (1464874883,11); (1463391977,11); (1461910289,11); (1460429815,11); (1458950556,11);
(1457472509,11); (1455995673,11); (1454520047,11); (1453045629,11); (1451572417,11); (1450100411,11); (1448629608,11); (1447160007,11);
(1445691607,11); (1444224406,11); (1442758402,11); (1441293595,11); (1439829983,11); (1438367564,11); (1436906337,11); (1435446300,11);
(1433987453,11); (1432529793,11); (1431073318,11); (1429618029,11); (1428163923,11); (1426710998,11); (1425259253,11); (1423808688,11);
(1422359300,11); (1420911088,11); (1419464050,11); (1418018186,11); (1416573493,11); (1415129970,11); (1413687617,11); (1412246430,11);
(1410806410,11); (1409367554,11); (1407929862,11); (1406493331,11); (1405057961,11); (1403623749,11); (1402190696,11); (1400758798,11);
(1399328055,11); (1397898465,11); (1396470028,11); (1395042741,11); (1393616603,11); (1392191613,11); (1390767769,11); (1389345071,11);
(1387923516,11); (1386503103,11); (1385083831,11); (1383665699,11); (1382248705,11); (1380832848,11); (1379418126,11); (1378004538,11);
(1376592083,11); (1375180759,11); (1373770565,11); (1372361499,11); (1370953561,11); (1369546749,11); (1368141062,11); (1366736497,11);
(1365333055,11); (1363930733,11); (1362529530,11); (1361129445,11); (1359730476,11); (1358332623,11); (1356935883,11); (1355540256,11);
(1354145740,11); (1352752334,11); (1351360037,11); (1349968846,11); (1348578762,11); (1347189782,11); (1345801905,11); (1344415131,11);
(1343029457,11); (1341644882,11); (1340261405,11); (1338879025,11); (1337497740,11); (1336117549,11); (1334738452,11); (1333360445,11);
(1331983529,11); (1330607702,11); (1329232962,11); (1327859309,11); (1326486740,11); (1325115256,11); (1323744854,11); (1322375533,11);
(1321007292,11); (1319640129,11); (1318274044,11); (1316909036,11); (1315545101,11); (1314182241,11); (1312820453,11); (1311459735,11);
(1310100088,11); (1308741509,11); (1307383997,11); (1306027551,11); (1304672170,11); (1303317852,11); (1301964597,11); (1300612402,11);
(1299261267,11); (1297911191,11); (1296562172,11); (1295214209,11); (1293867300,11); (1292521445,11); (1291176643,11); (1289832891,11);
(1288490189,11); (1287148536,11); (1285807930,11); (1284468371,11); (1283129856,11); (1281792385,11); (1280455956,11); (1279120568,11);
(1277786221,11); (1276452912,11); (1275120641,11); (1273789407,11); (1272459207,11); (1271130042,11); (1269801909,11); (1268474808,11);
(1267148737,11); (1265823695,11); (1264499682,11); (1263176695,11); (1261854733,11); (1260533796,11); (1259213882,11); (1257894991,11);
(1256577120,11); (1255260268,11); (1253944435,11); (1252629620,11); (1251315820,11); (1250003035,11); (1248691265,11); (1247380506,11);
(1246070759,11); (1244762022,11); (1243454295,11); (1242147575,11); (1240841862,11); (1239537154,11); (1238233451,11); (1236930751,11);
(1235629053,11); (1234328356,11); (1233028659,11); (1231729961,11); (1230432260,11); (1229135555,11); (1227839845,11); (1226545130,11);
(1225251407,11); (1223958676,11); (1222666936,11); (1221376185,11); (1220086422,11); (1218797647,11); (1217509858,11); (1216223053,11);
(1214937233,11); (1213652395,11); (1212368538,11); (1211085662,11); (1209803766,11); (1208522847,11); (1207242906,11); (1205963940,11);
(1204685949,11); (1203408932,11); (1202132888,11); (1200857815,11); (1199583713,11); (1198310579,11); (1197038414,11); (1195767216,11);
(1194496984,11); (1193227717,11); (1191959413,11); (1190692073,11); (1189425693,11); (1188160274,11); (1186895815,11); (1185632314,11);
(1184369770,11); (1183108182,11); (1181847549,11); (1180587871,11); (1179329145,11); (1178071370,11); (1176814547,11); (1175558673,11);
(1174303748,11); (1173049770,11); (1171796738,11); (1170544652,11); (1169293510,11); (1168043311,11); (1166794055,11); (1165545739,11);
(1164298364,11); (1163051927,11); (1161806429,11); (1160561867,11); (1159318241,11); (1158075549,11); (1156833791,11); (1155592966,11);
(1154353073,11); (1153114109,11); (1151876076,11); (1150638971,11); (1149402793,11); (1148167541,11); (1146933215,11); (1145699813,11);
(1144467334,11); (1143235777,11); (1142005142,11); (1140775426,11); (1139546630,11); (1138318752,11); (1137091790,11); (1135865745,11);
(1134640615,11); (1133416398,11); (1132193095,11); (1130970703,11); (1129749222,11); (1128528651,11); (1127308989,11); (1126090235,11);
(1124872388,11); (1123655446,11); (1122439409,11); (1121224276,11); (1120010046,11); (1118796717,11); (1117584289,11); (1116372761,11);
(1115162132,11); (1113952401,11); (1112743566,11); (1111535627,11); (1110328583,11); (1109122433,11); (1107917175,11); (1106712809,11);
(1105509334,11); (1104306749,11); (1103105053,11); (1101904244,11); (1100704322,11); (1099505287,11); (1098307136,11); (1097109869,11);
(1095913485,11); (1094717983,11); (1093523361,11); (1092329620,11); (1091136758,11); (1089944774,11); (1088753668,11); (1087563437,11);
(1086374081,11); (1085185600,11); (1083997992,11); (1082811256,11); (1081625391,11); (1080440397,11); (1079256273,11); (1078073016,11);
(1076890628,11); (1075709105,11); (1074528449,11); (1073348656,11); (1072169728,11); (1070991662,11); (1069814459,11); (1068638116,11);
(1067462633,11); (1066288008,11); (1065114242,11); (1063941333,11); (1062769280,11); (1061598083,11); (1060427739,11); (1059258249,11);
(1058089611,11); (1056921825,11); (1055754889,11); (1054588803,11); (1053423566,11); (1052259176,11); (1051095633,11); (1049932936,11);
(1048771084,11); (1047610077,11); (1046449912,11); (1045290589,11); (1044132108,11); (1042974467,11); (1041817666,11); (1040661703,11);
(1039506578,11); (1038352290,11); (1037198837,11); (1036046219,11); (1034894436,11); (1033743485,11); (1032593367,11); (1031444080,11);
(1030295624,11); (1029147996,11); (1028001198,11); (1026855227,11); (1025710083,11); (1024565765,11); (1023422273,11); (1022279604,11);
(1021137758,11); (1019996735,11); (1018856533,11); (1017717152,11); (1016578591,11); (1015440848,11); (1014303923,11); (1013167816,11);
(1012032524,11); (1010898048,11); (1009764386,11); (1008631538,11); (1007499503,11); (1006368279,11); (1005237866,11); (1004108263,11);
(1002979469,11); (1001851484,11); (1000724306,11); (999597935,11); (998472369,11); (997347608,11); (996223651,11); (995100498,11);
(993978146,11); (992856596,11); (991735847,11); (990615897,11); (989496746,11); (988378393,11); (987260837,11); (986144077,11);
(985028113,11); (983912943,11); (982798567,11); (981684984,11); (980572193,11); (979460193,11); (978348983,11); (977238563,11);
(976128931,11); (975020088,11); (973912031,11); (972804761,11); (971698275,11); (970592574,11); (969487657,11); (968383523,11);
(967280171,11); (966177599,11); (965075808,11); (963974797,11); (962874564,11); (961775109,11); (960676431,11); (959578529,11);
(958481403,11); (957385051,11); (956289473,11); (955194667,11); (954100634,11); (953007372,11); (951914880,11); (950823158,11);
(949732205,11); (948642020,11); (947552602,11); (946463951,11); (945376065,11); (944288944,11); (943202587,11); (942116993,11);
(941032161,11); (939948091,11); (938864781,11); (937782232,11); (936700442,11); (935619410,11); (934539135,11); (933459618,11);
(932380856,11); (931302850,11); (930225597,11); (929149099,11); (928073353,11); (926998360,11); (925924117,11); (924850625,11);
(923777883,11); (922705889,11); (921634644,11); (920564145,11); (919494394,11); (918425388,11); (917357127,11); (916289610,11);
(915222837,11); (914156806,11); (913091517,11); (912026969,11); (910963161,11); (909900093,11); (908837764,11); (907776173,11);
(906715319,11); (905655201,11); (904595819,11); (903537172,11); (902479259,11); (901422079,11); (900365633,11); (899309918,11);
(898254934,11); (897200680,11); (896147156,11); (895094361,11); (894042294,11); (892990954,11); (891940341,11); (890890453,11);
(889841291,11); (888792853,11); (887745139,11); (886698147,11); (885651877,11); (884606329,11); (883561501,11); (882517394,11);
(881474005,11); (880431334,11); (879389381,11); (878348145,11); (877307626,11); (876267821,11); (875228731,11); (874190355,11);
(873152693,11); (872115742,11); (871079504,11); (870043976,11); (869009158,11); (867975051,11); (866941651,11); (865908960,11);
(864876977,11); (863845699,11); (862815128,11); (861785262,11); (860756100,11); (859727642,11); (858699887,11); (857672834,11);
(856646483,11); (855620833,11); (854595882,11); (853571631,11); (852548079,11); (851525225,11); (850503068,11); (849481607,11);
(848460842,11); (847440773,11); (846421397,11); (845402716,11); (844384727,11); (843367431,11); (842350826,11); (841334913,11);
(840319689,11); (839305155,11); (838291309,11); (837278152,11); (836265682,11); (835253898,11); (834242801,11); (833232388,11);
(832222661,11); (831213617,11); (830205256,11); (829197578,11); (828190582,11); (827184267,11); (826178632,11); (825173677,11);
(824169401,11); (823165803,11); (822162883,11); (821160639,11); (820159073,11); (819158181,11); (818157965,11); (817158423,11);
(816159554,11); (815161358,11); (814163835,11); (813166983,11); (812170801,11); (811175290,11); (810180449,11); (809186276,11);
(808192771,11); (807199934,11); (806207764,11); (805216259,11); (804225420,11); (803235246,11); (802245736,11); (801256890,11);
(800268706,11); (799281184,11); (798294324,11); (797308124,11); (796322585,11); (795337705,11); (794353484,11); (793369921,11);
(792387015,11); (791404766,11); (790423174,11); (789442236,11); (788461954,11); (787482326,11); (786503351,11); (785525029,11);
(784547360,11); (783570342,11); (782593975,11); (781618258,11); (780643191,11); (779668773,11); (778695003,11); (777721880,11);
(776749405,11); (775777576,11); (774806393,11); (773835855,11); (772865961,11); (771896712,11); (770928105,11); (769960141,11);
(768992819,11); (768026138,11); (767060097,11); (766094697,11); (765129936,11); (764165814,11); (763202329,11); (762239483,11);
(761277273,11); (760315699,11); (759354760,11); (758394457,11); (757434788,11); (756475752,11); (755517350,11); (754559580,11);
(753602442,11); (752645935,11); (751690058,11); (750734811,11); (749780194,11); (748826205,11); (747872844,11); (746920111,11);
(745968005,11); (745016524,11); (744065669,11); (743115440,11); (742165834,11); (741216852,11); (740268494,11); (739320758,11);
(738373643,11); (737427150,11); (736481278,11); (735536025,11); (734591393,11); (733647378,11); (732703983,11); (731761204,11);
(730819043,11); (729877498,11); (728936569,11); (727996255,11); (727056556,11); (726117471,11); (725178999,11); (724241139,11);
(723303892,11); (722367257,11); (721431233,11); (720495818,11); (719561014,11); (718626819,11); (717693233,11); (716760254,11);
(715827883,11); (714896119,11); (713964961,11); (713034409,11); (712104461,11); (711175118,11); (710246379,11); (709318243,11);
(708390710,11); (707463779,11); (706537450,11); (705611721,11); (704686593,11); (703762065,11); (702838135,11); (701914805,11);
(700992072,11); (700069937,11); (699148399,11); (698227456,11); (697307110,11); (696387359,11); (695468202,11); (694549639,11);
(693631670,11); (692714293,11); (691797509,11); (690881316,11); (689965715,11); (689050703,11); (688136282,11); (687222451,11);
(686309208,11); (685396553,11); (684484486,11); (683573006,11); (682662113,11); (681751805,11); (680842083,11); (679932946,11);
(679024393,11); (678116424,11); (677209038,11); (676302234,11); (675396013,11); (674490373,11); (673585314,11); (672680835,11);
(671776937,11); (670873617,11); (669970876,11); (669068713,11); (668167128,11); (667266120,11); (666365688,11); (665465832,11);
(664566551,11); (663667846,11); (662769714,11); (661872156,11); (660975172,11); (660078760,11); (659182920,11); (658287651,11);
(657392954,11); (656498827,11); (655605270,11); (654712282,11); (653819863,11); (652928012,11); (652036729,11); (651146013,11);
(650255863,11); (649366280,11); (648477262,11); (647588810,11); (646700921,11); (645813597,11); (644926836,11); (644040638,11);
(643155002,11); (642269928,11); (641385415,11); (640501463,11); (639618071,11); (638735238,11); (637852965,11); (636971250,11);
(636090094,11); (635209495,11); (634329453,11); (633449967,11); (632571037,11); (631692663,11); (630814843,11); (629937578,11);
(629060867,11); (628184709,11); (627309104,11); (626434051,11); (625559550,11); (624685600,11); (623812201,11); (622939352,11);
(622067052,11); (621195302,11); (620324100,11); (619453447,11); (618583341,11); (617713782,11); (616844769,11); (615976303,11);
(615108382,11); (614241006,11); (613374175,11); (612507888,11); (611642144,11); (610776943,11); (609912284,11); (609048168,11);
(608184593,11); (607321558,11); (606459065,11); (605597111,11); (604735696,11); (603874821,11); (603014483,11); (602154684,11);
(601295422,11); (600436697,11); (599578508,11); (598720855,11); (597863738,11); (597007155,11); (596151107,11); (595295592,11);
(594440611,11); (593586163,11); (592732247,11); (591878863,11); (591026011,11); (590173689,11); (589321898,11); (588470636,11);
(587619904,11); (586769701,11); (585920026,11); (585070879,11); (584222260,11); (583374168,11); (582526601,11); (581679561,11);
(580833047,11); (579987057,11); (579141592,11); (578296651,11); (577452233,11); (576608338,11); (575764966,11); (574922116,11);
(574079788,11); (573237980,11); (572396693,11); (571555927,11); (570715680,11); (569875952,11); (569036742,11); (568198051,11);
(567359878,11); (566522222,11); (565685082,11); (564848459,11); (564012352,11); (563176760,11); (562341683,11); (561507120,11);
(560673071,11); (559839536,11); (559006513,11); (558174003,11); (557342005,11); (556510519,11); (555679543,11); (554849078,11);
(554019123,11); (553189678,11); (552360742,11); (551532315,11); (550704396,11); (549876985,11); (549050081,11); (548223684,11);
(547397793,11); (546572408,11); (545747529,11); (544923155,11); (544099285,11); (543275919,11); (542453057,11); (541630697,11);
(540808841,11); (539987487,11); (539166634,11); (538346283,11); (537526433,11); (536707082,11); (535888232,11); (535069882,11);
(534252030,11); (533434677,11); (532617822,11); (531801464,11); (530985604,11); (530170241,11); (529355373,11); (528541002,11);
(527727126,11); (526913744,11); (526100858,11); (525288465,11); (524476566,11); (523665160,11); (522854246,11); (522043825,11);
(521233896,11); (520424458,11); (519615510,11); (518807053,11); (517999087,11); (517191609,11); (516384621,11); (515578121,11);
(514772110,11); (513966586,11); (513161550,11); (512357000,11); (511552937,11); (510749360,11); (509946269,11); (509143662,11);
(508341540,11); (507539903,11); (506738749,11); (505938079,11); (505137891,11); (504338186,11); (503538963,11); (502740222,11);
(501941962,11); (501144182,11); (500346883,11); (499550064,11); (498753724,11); (497957863,11); (497162481,11); (496367576,11);
(495573150,11); (494779201,11); (493985729,11); (493192733,11); (492400213,11); (491608168,11); (490816599,11); (490025505,11);
(489234884,11); (488444738,11); (487655065,11); (486865865,11); (486077138,11); (485288882,11); (484501099,11); (483713787,11);
(482926945,11); (482140574,11); (481354674,11); (480569242,11); (479784280,11); (478999787,11); (478215762,11); (477432205,11);
(476649116,11); (475866493,11); (475084338,11); (474302648,11); (473521425,11); (472740667,11); (471960373,11); (471180545,11);
(470401181,11); (469622280,11); (468843843,11); (468065868,11); (467288357,11); (466511307,11); (465734719,11); (464958593,11);
(464182927,11); (463407722,11); (462632976,11); (461858691,11); (461084864,11); (460311497,11); (459538588,11); (458766137,11);
(457994143,11); (457222607,11); (456451528,11); (455680905,11); (454910738,11); (454141026,11); (453371770,11); (452602969,11);
(451834621,11); (451066728,11); (450299289,11); (449532302,11); (448765769,11); (447999687,11); (447234058,11); (446468880,11);
(445704154,11); (444939878,11); (444176053,11); (443412677,11); (442649751,11); (441887275,11); (441125247,11); (440363667,11);
(439602536,11); (438841852,11); (438081615,11); (437321825,11); (436562481,11); (435803584,11); (435045132,11); (434287125,11);
(433529563,11); (432772446,11); (432015773,11); (431259543,11); (430503756,11); (429748413,11); (428993512,11); (428239053,11);
(427485036,11); (426731460,11); (425978325,11); (425225631,11); (424473377,11); (423721562,11); (422970187,11); (422219251,11);
(421468754,11); (420718695,11); (419969074,11); (419219890,11); (418471143,11); (417722833,11); (416974960,11); (416227522,11);
(415480520,11); (414733953,11); (413987821,11); (413242123,11); (412496860,11); (411752030,11); (411007633,11); (410263669,11);
(409520138,11); (408777039,11); (408034372,11); (407292136,11); (406550331,11); (405808957,11); (405068013,11); (404327499,11);
(403587415,11); (402847759,11); (402108533,11); (401369735,11); (400631365,11); (399893422,11); (399155907,11); (398418819,11);
(397682158,11); (396945922,11); (396210113,11); (395474728,11); (394739769,11); (394005235,11); (393271125,11); (392537439,11);
(391804176,11); (391071337,11); (390338921,11); (389606927,11); (388875355,11); (388144206,11); (387413477,11); (386683170,11);
(385953283,11); (385223816,11); (384494770,11); (383766143,11); (383037935,11); (382310147,11); (381582776,11); (380855824,11);
(380129290,11); (379403173,11); (378677473,11); (377952190,11); (377227323,11); (376502873,11); (375778837,11); (375055217,11);
(374332013,11); (373609222,11); (372886846,11); (372164884,11); (371443335,11); (370722199,11); (370001476,11); (369281166,11);
(368561267,11); (367841781,11); (367122705,11); (366404041,11); (365685787,11); (364967944,11); (364250511,11); (363533487,11);
(362816873,11); (362100667,11); (361384870,11); (360669481,11); (359954500,11); (359239927,11); (358525761,11); (357812001,11);
(357098648,11); (356385701,11); (355673160,11); (354961025,11); (354249294,11); (353537968,11); (352827047,11); (352116529,11);
(351406416,11); (350696705,11); (349987398,11); (349278493,11); (348569991,11); (347861891,11); (347154192,11); (346446895,11);
(345739998,11); (345033502,11); (344327407,11); (343621711,11); (342916415,11); (342211519,11); (341507021,11); (340802922,11);
(340099221,11); (339395918,11); (338693012,11); (337990504,11); (337288393,11); (336586678,11); (335885359,11); (335184437,11);
(334483910,11); (333783778,11); (333084041,11); (332384698,11); (331685750,11); (330987196,11); (330289035,11); (329591267,11);
(328893893,11); (328196910,11); (327500320,11); (326804122,11); (326108316,11); (325412901,11); (324717876,11); (324023243,11);
(323328999,11); (322635146,11); (321941682,11); (321248607,11); (320555921,11); (319863624,11); (319171715,11); (318480194,11);
(317789061,11); (317098314,11); (316407955,11); (315717983,11); (315028397,11); (314339197,11); (313650382,11); (312961953,11);
(312273909,11); (311586250,11); (310898975,11); (310212084,11); (309525577,11); (308839453,11); (308153712,11); (307468354,11);
(306783379,11); (306098785,11); (305414574,11); (304730744,11); (304047295,11); (303364227,11); (302681540,11); (301999233,11);
(301317305,11); (300635758,11); (299954589,11); (299273800,11); (298593389,11); (297913356,11); (297233702,11); (296554425,11);
(295875525,11); (295197003,11); (294518857,11); (293841088,11); (293163695,11); (292486678,11); (291810036,11); (291133769,11);
(290457878,11); (289782360,11); (289107217,11); (288432448,11); (287758053,11); (287084031,11); (286410382,11); (285737106,11);
(285064202,11); (284391670,11); (283719510,11); (283047721,11); (282376303,11); (281705257,11); (281034581,11); (280364275,11);
(279694339,11); (279024772,11); (278355575,11); (277686747,11); (277018288,11); (276350197,11); (275682474,11); (275015119,11);
(274348132,11); (273681511,11); (273015258,11); (272349371,11); (271683850,11); (271018696,11); (270353907,11); (269689483,11);
(269025425,11); (268361731,11); (267698401,11); (267035436,11); (266372835,11); (265710597,11); (265048723,11); (264387211,11);
(263726063,11); (263065276,11); (262404852,11); (261744789,11); (261085088,11); (260425748,11); (259766769,11); (259108151,11);
(258449892,11); (257791994,11); (257134456,11); (256477277,11); (255820457,11); (255163996,11); (254507893,11); (253852149,11);
(253196762,11); (252541734,11); (251887062,11); (251232748,11); (250578790,11); (249925189,11); (249271944,11); (248619055,11);
(247966522,11); (247314344,11); (246662521,11); (246011052,11); (245359939,11); (244709179,11); (244058773,11); (243408721,11);
(242759022,11); (242109676,11); (241460682,11); (240812041,11); (240163753,11); (239515816,11); (238868230,11); (238220996,11);
(237574113,11); (236927581,11); (236281399,11); (235635567,11); (234990085,11); (234344953,11); (233700170,11); (233055736,11);
(232411651,11); (231767914,11); (231124525,11); (230481484,11); (229838791,11); (229196445,11); (228554446,11); (227912794,11);
(227271488,11); (226630529,11); (225989915,11); (225349647,11); (224709724,11); (224070147,11); (223430914,11); (222792025,11);
(222153481,11); (221515281,11); (220877425,11); (220239912,11); (219602742,11); (218965915,11); (218329430,11); (217693288,11);
(217057488,11); (216422029,11); (215786912,11); (215152136,11); (214517701,11); (213883607,11); (213249853,11); (212616439,11);
(211983365,11); (211350630,11); (210718235,11); (210086179,11); (209454461,11); (208823082,11); (208192041,11); (207561338,11);
(206930973,11); (206300945,11); (205671254,11); (205041900,11); (204412883,11); (203784201,11); (203155856,11); (202527847,11);
(201900173,11); (201272834,11); (200645830,11); (200019161,11); (199392826,11); (198766825,11); (198141158,11); (197515825,11);
(196890825,11); (196266159,11); (195641825,11); (195017823,11); (194394154,11); (193770817,11); (193147811,11); (192525137,11);
(191902795,11); (191280783,11); (190659102,11); (190037751,11); (189416730,11); (188796040,11); (188175679,11); (187555647,11);
(186935944,11); (186316571,11); (185697525,11); (185078809,11); (184460420,11); (183842359,11); (183224625,11); (182607219,11);
(181990140,11); (181373388,11); (180756962,11); (180140862,11); (179525089,11); (178909641,11); (178294518,11); (177679721,11);
(177065248,11); (176451101,11); (175837278,11); (175223778,11); (174610603,11); (173997752,11); (173385224,11); (172773019,11);
(172161137,11); (171549577,11); (170938340,11); (170327426,11); (169716833,11); (169106561,11); (168496611,11); (167886982,11);
(167277674,11); (166668687,11); (166060020,11); (165451673,11); (164843645,11); (164235938,11); (163628550,11); (163021480,11);
(162414730,11); (161808298,11); (161202185,11); (160596390,11); (159990912,11); (159385753,11); (158780910,11); (158176385,11);
(157572176,11); (156968284,11); (156364708,11); (155761449,11); (155158505,11); (154555877,11); (153953564,11); (153351566,11);
(152749883,11); (152148515,11); (151547461,11); (150946722,11); (150346296,11); (149746183,11); (149146384,11); (148546899,11);
(147947726,11); (147348865,11); (146750318,11); (146152082,11); (145554158,11); (144956546,11); (144359245,11); (143762256,11);
(143165577,11); (142569209,11); (141973152,11); (141377404,11); (140781967,11); (140186839,11); (139592021,11); (138997512,11);
(138403313,11); (137809421,11); (137215839,11); (136622564,11); (136029598,11); (135436940,11); (134844589,11); (134252545,11);
(133660808,11); (133069379,11); (132478256,11); (131887439,11); (131296928,11); (130706723,11); (130116824,11); (129527231,11);
(128937942,11); (128348959,11); (127760280,11); (127171905,11); (126583835,11); (125996069,11); (125408606,11); (124821447,11);
(124234592,11); (123648039,11); (123061789,11); (122475842,11); (121890197,11); (121304854,11); (120719814,11); (120135074,11);
(119550637,11); (118966500,11); (118382664,11); (117799129,11); (117215895,11); (116632961,11); (116050326,11); (115467992,11);
(114885957,11); (114304221,11); (113722785,11); (113141647,11); (112560808,11); (111980268,11); (111400025,11); (110820081,11);
(110240434,11); (109661085,11); (109082033,11); (108503278,11); (107924820,11); (107346658,11); (106768793,11); (106191224,11);
(105613950,11); (105036973,11); (104460291,11); (103883904,11); (103307812,11); (102732014,11); (102156512,11); (101581303,11);
(101006389,11); (100431768,11); (99857441,11); (99283408,11); (98709668,11); (98136220,11); (97563066,11); (96990204,11);
(96417634,11); (95845356,11); (95273370,11); (94701676,11); (94130273,11); (93559161,11); (92988340,11); (92417810,11);
(91847570,11); (91277621,11); (90707961,11); (90138592,11); (89569512,11); (89000721,11); (88432220,11); (87864007,11);
(87296084,11); (86728449,11); (86161102,11); (85594043,11); (85027272,11); (84460788,11); (83894593,11); (83328684,11);
(82763062,11); (82197727,11); (81632678,11); (81067916,11); (80503440,11); (79939250,11); (79375345,11); (78811726,11);
(78248393,11); (77685344,11); (77122580,11); (76560100,11); (75997905,11); (75435994,11); (74874367,11); (74313024,11);
(73751964,11); (73191188,11); (72630694,11); (72070484,11); (71510556,11); (70950910,11); (70391547,11); (69832466,11);
(69273667,11); (68715149,11); (68156912,11); (67598957,11); (67041283,11); (66483889,11); (65926776,11); (65369943,11);
(64813390,11); (64257117,11); (63701124,11); (63145411,11); (62589976,11); (62034821,11); (61479944,11); (60925346,11);
(60371027,11); (59816985,11); (59263222,11); (58709737,11); (58156529,11); (57603598,11); (57050945,11); (56498568,11);
(55946468,11); (55394645,11); (54843098,11); (54291827,11); (53740833,11); (53190113,11); (52639670,11); (52089501,11);
(51539608,11); (50989990,11); (50440646,11); (49891577,11); (49342782,11); (48794261,11); (48246014,11); (47698040,11);
(47150340,11); (46602913,11); (46055760,11); (45508879,11); (44962270,11); (44415934,11); (43869871,11); (43324079,11);
(42778559,11); (42233311,11); (41688334,11); (41143628,11); (40599194,11); (40055030,11); (39511137,11); (38967514,11);
(38424161,11); (37881079,11); (37338266,11); (36795722,11); (36253448,11); (35711444,11); (35169708,11); (34628241,11);
(34087043,11); (33546113,11); (33005451,11); (32465057,11); (31924931,11); (31385072,11); (30845481,11); (30306157,11);
(29767101,11); (29228310,11); (28689787,11); (28151530,11); (27613539,11); (27075814,11); (26538355,11); (26001162,11);
(25464233,11); (24927571,11); (24391173,11); (23855040,11); (23319171,11); (22783567,11); (22248228,11); (21713152,11);
(21178340,11); (20643792,11); (20109507,11); (19575486,11); (19041727,11); (18508232,11); (17974999,11); (17442029,11);
(16909321,11); (16376875,11); (15844690,11); (15312768,11); (14781107,11); (14249708,11); (13718569,11); (13187692,11);
(12657075,11); (12126719,11); (11596623,11); (11066787,11); (10537212,11); (10007896,11); (9478840,11); (8950043,11);
(8421505,11); (7893226,11); (7365207,11); (6837445,11); (6309943,11); (5782698,11); (5255712,11); (4728983,11);
(4202513,11); (3676299,11); (3150343,11); (2624644,11); (2099203,11); (1574017,11); (1049089,11); (524417,11)].

(** entries 4096..6143 *)
Definition RECIPROCAL_2 : list (Z * Z) := [
(2147483649,12); (2146435328,12); (2145387520,12); (2144340223,12); (2143293437,12); (2142247161,12); (2141201395,12); (2140156139,12);
(2139111393,12); (2138067155,12); (2137023426,12); (2135980206,12); (2134937493,12); (2133895288,12); (2132853590,12); (2131812398,12);
(2130771713,12); (2129731535,12); (2128691862,12); (2127652694,12); (2126614031,12); (2125575873,12); (2124538219,12); (2123501068,12);
(2122464422,12); (2121428278,12); (2120392637,12); (2119357498,12); (2118322862,12); (2117288727,12); (2116255093,12); (2115221961,12);
(2114189328,12); (2113157196,12); (2112125564,12); (2111094432,12); (2110063798,12); (2109033663,12); (2108004027,12); (2106974888,12);
(2105946247,12); (2104918104,12); (2103890457,12); (2102863307,12); (2101836653,12); (2100810495,12); (2099784833,12); (2098759665,12);
(2097734993,12); (2096710814,12); (2095687130,12); (2094663940,12); (2093641243,12); (2092619039,12); (2091597327,12); (2090576108,12);
(2089555381,12); (2088535145,12); (2087515400,12); (2086496147,12); (2085477383,12); (2084459110,12); (2083441327,12); (2082424033,12);
(2081407229,12); (2080390913,12); (2079375085,12); (2078359745,12); (2077344893,12); (2076330529,12); (2075316651,12); (2074303260,12);
(2073290355,12); (2072277937,12); (2071266003,12); (2070254555,12); (2069243592,12); (2068233114,12); (2067223119,12); (2066213609,12);
(2065204582,12); (2064196038,12); (2063187976,12); (2062180398,12); (2061173301,12); (2060166686,12); (2059160553,12); (2058154900,12);
(2057149728,12); (2056145037,12); (2055140826,12); (2054137094,12); (2053133842,12); (2052131068,12); (2051128774,12); (2050126957,12);
(2049125619,12); (2048124758,12); (2047124375,12); (2046124468,12); (2045125038,12); (2044126084,12); (2043127607,12); (2042129604,12);
(2041132077,12); (2040135025,12); (2039138448,12); (2038142345,12); (2037146715,12); (2036151559,12); (2035156877,12); (2034162667,12);
(2033168930,12); (2032175665,12); (2031182871,12); (2030190550,12); (2029198699,12); (2028207320,12); (2027216411,12); (2026225972,12);
(2025236003,12); (2024246503,12); (2023257473,12); (2022268911,12); (2021280818,12); (2020293193,12); (2019306036,12); (2018319347,12);
(2017333124,12); (2016347369,12); (2015362080,12); (2014377257,12); (2013392900,12); (2012409009,12); (2011425583,12); (2010442622,12);
(2009460125,12); (2008478092,12); (2007496524,12); (2006515418,12); (2005534777,12); (2004554598,12); (2003574881,12); (2002595627,12);
(2001616835,12); (2000638504,12); (1999660635,12); (1998683226,12); (1997706278,12); (1996729791,12); (1995753763,12); (1994778195,12);
(1993803086,12); (1992828436,12); (1991854245,12); (1990880513,12); (1989907238,12); (1988934421,12); (1987962061,12); (1986990158,12);
(1986018713,12); (1985047723,12); (1984077190,12); (1983107112,12); (1982137490,12); (1981168323,12); (1980199610,12); (1979231352,12);
(1978263549,12); (1977296199,12); (1976329302,12); (1975362859,12); (1974396869,12); (1973431331,12); (1972466246,12); (1971501612,12);
(1970537430,12); (1969573700,12); (1968610420,12); (1967647591,12); (1966685212,12); (1965723284,12); (1964761805,12); (1963800775,12);
(1962840195,12); (1961880063,12); (1960920380,12); (1959961145,12); (1959002357,12); (1958044017,12); (1957086125,12); (1956128679,12);
(1955171680,12); (1954215127,12); (1953259020,12); (1952303359,12); (1951348143,12); (1950393372,12); (1949439046,12); (1948485164,12);
(1947531726,12); (1946578732,12); (1945626181,12); (1944674074,12); (1943722409,12); (1942771187,12); (1941820407,12); (1940870070,12);
(1939920173,12); (1938970718,12); (1938021704,12); (1937073131,12); (1936124998,12); (1935177305,12); (1934230052,12); (1933283238,12);
(1932336864,12); (1931390928,12); (1930445431,12); (1929500372,12); (1928555751,12); (1927611568,12); (1926667822,12); (1925724513,12);
(1924781641,12); (1923839205,12); (1922897205,12); (1921955641,12); (1921014513,12); (1920073819,12); (1919133561,12); (1918193737,12);
(1917254348,12); (1916315393,12); (1915376871,12); (1914438783,12); (1913501127,12); (1912563905,12); (1911627115,12); (1910690757,12);
(1909754831,12); (1908819337,12); (1907884274,12); (1906949642,12); (1906015441,12); (1905081670,12); (1904148330,12); (1903215419,12);
(1902282937,12); (1901350885,12); (1900419262,12); (1899488067,12); (1898557301,12); (1897626963,12); (1896697052,12); (1895767569,12);
(1894838513,12); (1893909884,12); (1892981682,12); (1892053906,12); (1891126556,12); (1890199631,12); (1889273132,12); (1888347058,12);
(1887421409,12); (1886496184,12); (1885571383,12); (1884647007,12); (1883723054,12); (1882799524,12); (1881876418,12); (1880953734,12);
(1880031473,12); (1879109633,12); (1878188216,12); (1877267221,12); (1876346646,12); (1875426493,12); (1874506760,12); (1873587448,12);
(1872668556,12); (1871750084,12); (1870832032,12); (1869914399,12); (1868997185,12); (1868080389,12); (1867164012,12); (1866248053,12);
(1865332512,12); (1864417389,12); (1863502683,12); (1862588394,12); (1861674521,12); (1860761065,12); (1859848025,12); (1858935402,12);
(1858023193,12); (1857111400,12); (1856200022,12); (1855289059,12); (1854378510,12); (1853468375,12); (1852558655,12); (1851649347,12);
(1850740454,12); (1849831973,12); (1848923905,12); (1848016249,12); (1847109006,12); (1846202174,12); (1845295754,12); (1844389746,12);
(1843484148,12); (1842578962,12); (1841674186,12); (1840769820,12); (1839865864,12); (1838962318,12); (1838059181,12); (1837156453,12);
(1836254134,12); (1835352224,12); (1834450722,12); (1833549628,12); (1832648942,12); (1831748663,12); (1830848791,12); (1829949327,12);
(1829050269,12); (1828151617,12); (1827253371,12); (1826355531,12); (1825458097,12); (1824561068,12); (1823664444,12); (1822768224,12);
(1821872409,12); (1820976999,12); (1820081992,12); (1819187388,12); (1818293188,12); (1817399392,12); (1816505997,12); (1815613006,12);
(1814720417,12); (1813828229,12); (1812936444,12); (1812045059,12); (1811154076,12); (1810263494,12); (1809373313,12); (1808483531,12);
(1807594150,12); (1806705169,12); (1805816587,12); (1804928405,12); (1804040621,12); (1803153236,12); (1802266250,12); (1801379662,12);
(1800493472,12); (1799607679,12); (1798722284,12); (1797837286,12); (1796952685,12); (1796068481,12); (1795184673,12); (1794301261,12);
(1793418244,12); (1792535623,12); (1791653398,12); (1790771567,12); (1789890131,12); (1789009090,12); (1788128443,12); (1787248190,12);
(1786368330,12); (1785488864,12); (1784609791,12); (1783731111,12); (1782852824,12); (1781974928,12); (1781097425,12); (1780220314,12);
(1779343595,12); (1778467266,12); (1777591329,12); (1776715782,12); (1775840626,12); (1774965861,12); (1774091485,12); (1773217499,12);
(1772343903,12); (1771470695,12); (1770597877,12); (1769725447,12); (1768853406,12); (1767981753,12); (1767110488,12); (1766239610,12);
(1765369120,12); (1764499017,12); (1763629301,12); (1762759972,12); (1761891029,12); (1761022472,12); (1760154301,12); (1759286516,12);
(1758419115,12); (1757552100,12); (1756685470,12); (1755819225,12); (1754953363,12); (1754087886,12); (1753222793,12); (1752358083,12);
(1751493756,12); (1750629812,12); (1749766252,12); (1748903073,12); (1748040277,12); (1747177863,12); (1746315831,12); (1745454180,12);
(1744592911,12); (1743732023,12); (1742871515,12); (1742011388,12); (1741151641,12); (1740292274,12); (1739433287,12); (1738574679,12);
(1737716451,12); (1736858601,12); (1736001131,12); (1735144038,12); (1734287324,12); (1733430988,12); (1732575030,12); (1731719449,12);
(1730864246,12); (1730009419,12); (1729154970,12); (1728300896,12); (1727447199,12); (1726593878,12); (1725740933,12); (1724888363,12);
(1724036169,12); (1723184349,12); (1722332904,12); (1721481834,12); (1720631138,12); (1719780816,12); (1718930868,12); (1718081293,12);
(1717232092,12); (1716383263,12); (1715534808,12); (1714686724,12); (1713839014,12); (1712991675,12); (1712144708,12); (1711298113,12);
(1710451889,12); (1709606036,12); (1708760553,12); (1707915442,12); (1707070701,12); (1706226329,12); (1705382328,12); (1704538696,12);
(1703695434,12); (1702852541,12); (1702010016,12); (1701167861,12); (1700326074,12); (1699484654,12); (1698643603,12); (1697802920,12);
(1696962603,12); (1696122655,12); (1695283073,12); (1694443857,12); (1693605008,12); (1692766526,12); (1691928409,12); (1691090659,12);
(1690253273,12); (1689416253,12); (1688579598,12); (1687743308,12); (1686907382,12); (1686071821,12); (1685236624,12); (1684401790,12);
(1683567320,12); (1682733214,12); (1681899471,12); (1681066090,12); (1680233072,12); (1679400417,12); (1678568124,12); (1677736193,12);
(1676904623,12); (1676073415,12); (1675242568,12); (1674412082,12); (1673581957,12); (1672752193,12); (1671922789,12); (1671093744,12);
(1670265060,12); (1669436735,12); (1668608770,12); (1667781164,12); (1666953916,12); (1666127028,12); (1665300497,12); (1664474325,12);
(1663648511,12); (1662823055,12); (1661997956,12); (1661173214,12); (1660348830,12); (1659524802,12); (1658701131,12); (1657877816,12);
(1657054857,12); (1656232254,12); (1655410007,12); (1654588115,12); (1653766578,12); (1652945396,12); (1652124569,12); (1651304097,12);
(1650483979,12); (1649664214,12); (1648844804,12); (1648025747,12); (1647207044,12); (1646388693,12); (1645570696,12); (1644753051,12);
(1643935759,12); (1643118818,12); (1642302230,12); (1641485994,12); (1640670109,12); (1639854575,12); (1639039393,12); (1638224561,12);
(1637410080,12); (1636595949,12); (1635782169,12); (1634968738,12); (1634155657,12); (1633342926,12); (1632530543,12); (1631718510,12);
(1630906826,12); (1630095490,12); (1629284503,12); (1628473864,12); (1627663572,12); (1626853629,12); (1626044033,12); (1625234784,12);
(1624425882,12); (1623617327,12); (1622809118,12); (1622001256,12); (1621193740,12); (1620386570,12); (1619579745,12); (1618773266,12);
(1617967133,12); (1617161344,12); (1616355900,12); (1615550801,12); (1614746045,12); (1613941635,12); (1613137568,12); (1612333844,12);
(1611530465,12); (1610727428,12); (1609924734,12); (1609122384,12); (1608320376,12); (1607518710,12); (1606717386,12); (1605916405,12);
(1605115765,12); (1604315466,12); (1603515509,12); (1602715893,12); (1601916618,12); (1601117683,12); (1600319089,12); (1599520835,12);
(1598722921,12); (1597925346,12); (1597128112,12); (1596331216,12); (1595534660,12); (1594738442,12); (1593942564,12); (1593147023,12);
(1592351821,12); (1591556957,12); (1590762431,12); (1589968242,12); (1589174391,12); (1588380877,12); (1587587700,12); (1586794859,12);
(1586002355,12); (1585210188,12); (1584418356,12); (1583626860,12); (1582835700,12); (1582044876,12); (1581254387,12); (1580464232,12);
(1579674413,12); (1578884928,12); (1578095777,12); (1577306961,12); (1576518479,12); (1575730330,12); (1574942515,12); (1574155033,12);
(1573367885,12); (1572581069,12); (1571794586,12); (1571008435,12); (1570222617,12); (1569437131,12); (1568651977,12); (1567867154,12);
(1567082663,12); (1566298502,12); (1565514673,12); (1564731175,12); (1563948007,12); (1563165170,12); (1562382663,12); (1561600486,12);
(1560818638,12); (1560037121,12); (1559255932,12); (1558475073,12); (1557694542,12); (1556914340,12); (1556134467,12); (1555354922,12);
(1554575705,12); (1553796816,12); (1553018255,12); (1552240021,12); (1551462115,12); (1550684535,12); (1549907282,12); (1549130356,12);
(1548353757,12); (1547577483,12); (1546801536,12); (1546025915,12); (1545250619,12); (1544475648,12); (1543701003,12); (1542926683,12);
(1542152687,12); (1541379016,12); (1540605670,12); (1539832648,12); (1539059949,12); (1538287575,12); (1537515524,12); (1536743796,12);
(1535972392,12); (1535201311,12); (1534430552,12); (1533660116,12); (1532890002,12); (1532120210,12); (1531350741,12); (1530581593,12);
(1529812766,12); (1529044261,12); (1528276078,12); (1527508215,12); (1526740673,12); (1525973451,12); (1525206550,12); (1524439969,12);
(1523673707,12); (1522907766,12); (1522142144,12); (1521376841,12); (1520611858,12); (1519847194,12); (1519082848,12); (1518318821,12);
(1517555112,12); (1516791721,12); (1516028648,12); (1515265893,12); (1514503456,12); (1513741336,12); (1512979533,12); (1512218047,12);
(1511456878,12); (1510696025,12); (1509935489,12); (1509175268,12); (1508415364,12); (1507655776,12); (1506896503,12); (1506137546,12);
(1505378903,12); (1504620576,12); (1503862563,12); (1503104866,12); (1502347482,12); (1501590413,12); (1500833657,12); (1500077216,12);
(1499321088,12); (1498565274,12); (1497809772,12); (1497054584,12); (1496299709,12); (1495545146,12); (1494790896,12); (1494036958,12);
(1493283332,12); (1492530018,12); (1491777015,12); (1491024324,12); (1490271945,12); (1489519876,12); (1488768119,12); (1488016672,12);
(1487265535,12); (1486514709,12); (1485764193,12); (1485013987,12); (1484264091,12); (1483514504,12); (1482765227,12); (1482016259,12);
(1481267599,12); (1480519249,12); (1479771207,12); (1479023474,12); (1478276048,12); (1477528931,12); (1476782122,12); (1476035620,12);
(1475289426,12); (1474543539,12); (1473797959,12); (1473052686,12); (1472307720,12); (1471563060,12); (1470818706,12); (1470074659,12);
(1469330918,12); (1468587482,12); (1467844352,12); (1467101527,12); (1466359007,12); (1465616793,12); (1464874883,12); (1464133278,12);
(1463391977,12); (1462650981,12); (1461910289,12); (1461169900,12); (1460429815,12); (1459690034,12); (1458950556,12); (1458211381,12);
(1457472509,12); (1456733940,12); (1455995673,12); (1455257709,12); (1454520047,12); (1453782687,12); (1453045629,12); (1452308872,12);
(1451572417,12); (1450836263,12); (1450100411,12); (1449364859,12); (1448629608,12); (1447894657,12); (1447160007,12); (1446425657,12);
(1445691607,12); (1444957856,12); (1444224406,12); (1443491254,12); (1442758402,12); (1442025849,12); (1441293595,12); (1440561640,12);
(1439829983,12); (1439098625,12); (1438367564,12); (1437636802,12); (1436906337,12); (1436176170,12); (1435446300,12); (1434716728,12);
(1433987453,12); (1433258474,12); (1432529793,12); (1431801407,12); (1431073318,12); (1430345526,12); (1429618029,12); (1428890828,12);
(1428163923,12); (1427437313,12); (1426710998,12); (1425984978,12); (1425259253,12); (1424533823,12); (1423808688,12); (1423083847,12);
(1422359300,12); (1421635047,12); (1420911088,12); (1420187422,12); (1419464050,12); (1418740971,12); (1418018186,12); (1417295693,12);
(1416573493,12); (1415851585,12); (1415129970,12); (1414408647,12); (1413687617,12); (1412966878,12); (1412246430,12); (1411526274,12);
(1410806410,12); (1410086837,12); (1409367554,12); (1408648563,12); (1407929862,12); (1407211451,12); (1406493331,12); (1405775501,12);
(1405057961,12); (1404340710,12); (1403623749,12); (1402907078,12); (1402190696,12); (1401474602,12); (1400758798,12); (1400043282,12);
(1399328055,12); (1398613116,12); (1397898465,12); (1397184103,12); (1396470028,12); (1395756241,12); (1395042741,12); (1394329528,12);
(1393616603,12); (1392903965,12); (1392191613,12); (1391479548,12); (1390767769,12); (1390056277,12); (1389345071,12); (1388634150,12);
(1387923516,12); (1387213167,12); (1386503103,12); (1385793325,12); (1385083831,12); (1384374623,12); (1383665699,12); (1382957060,12);
(1382248705,12); (1381540634,12); (1380832848,12); (1380125345,12); (1379418126,12); (1378711190,12); (1378004538,12); (1377298169,12);
(1376592083,12); (1375886279,12); (1375180759,12); (1374475521,12); (1373770565,12); (1373065891,12); (1372361499,12); (1371657390,12);
(1370953561,12); (1370250015,12); (1369546749,12); (1368843765,12); (1368141062,12); (1367438639,12); (1366736497,12); (1366034636,12);
(1365333055,12); (1364631754,12); (1363930733,12); (1363229991,12); (1362529530,12); (1361829348,12); (1361129445,12); (1360429821,12);
(1359730476,12); (1359031410,12); (1358332623,12); (1357634114,12); (1356935883,12); (1356237931,12); (1355540256,12); (1354842859,12);
(1354145740,12); (1353448899,12); (1352752334,12); (1352056047,12); (1351360037,12); (1350664303,12); (1349968846,12); (1349273666,12);
(1348578762,12); (1347884134,12); (1347189782,12); (1346495706,12); (1345801905,12); (1345108380,12); (1344415131,12); (1343722156,12);
(1343029457,12); (1342337032,12); (1341644882,12); (1340953006,12); (1340261405,12); (1339570078,12); (1338879025,12); (1338188246,12);
(1337497740,12); (1336807508,12); (1336117549,12); (1335427864,12); (1334738452,12); (1334049312,12); (1333360445,12); (1332671851,12);
(1331983529,12); (1331295479,12); (1330607702,12); (1329920196,12); (1329232962,12); (1328546000,12); (1327859309,12); (1327172889,12);
(1326486740,12); (1325800863,12); (1325115256,12); (1324429920,12); (1323744854,12); (1323060058,12); (1322375533,12); (1321691277,12);
(1321007292,12); (1320323576,12); (1319640129,12); (1318956952,12); (1318274044,12); (1317591406,12); (1316909036,12); (1316226934,12);
(1315545101,12); (1314863537,12); (1314182241,12); (1313501213,12); (1312820453,12); (1312139960,12); (1311459735,12); (1310779778,12);
(1310100088,12); (1309420665,12); (1308741509,12); (1308062619,12); (1307383997,12); (1306705641,12); (1306027551,12); (1305349727,12);
(1304672170,12); (1303994878,12); (1303317852,12); (1302641092,12); (1301964597,12); (1301288367,12); (1300612402,12); (1299936702,12);
(1299261267,12); (1298586097,12); (1297911191,12); (1297236549,12); (1296562172,12); (1295888058,12); (1295214209,12); (1294540623,12);
(1293867300,12); (1293194241,12); (1292521445,12); (1291848913,12); (1291176643,12); (1290504636,12); (1289832891,12); (1289161409,12);
(1288490189,12); (1287819232,12); (1287148536,12); (1286478102,12); (1285807930,12); (1285138020,12); (1284468371,12); (1283798983,12);
(1283129856,12); (1282460990,12); (1281792385,12); (1281124040,12); (1280455956,12); (1279788132,12); (1279120568,12); (1278453265,12);
(1277786221,12); (1277119437,12); (1276452912,12); (1275786647,12); (1275120641,12); (1274454894,12); (1273789407,12); (1273124178,12);
(1272459207,12); (1271794495,12); (1271130042,12); (1270465846,12); (1269801909,12); (1269138229,12); (1268474808,12); (1267811644,12);
(1267148737,12); (1266486087,12); (1265823695,12); (1265161560,12); (1264499682,12); (1263838060,12); (1263176695,12); (1262515586,12);
(1261854733,12); (1261194137,12); (1260533796,12); (1259873711,12); (1259213882,12); (1258554309,12); (1257894991,12); (1257235928,12);
(1256577120,12); (1255918567,12); (1255260268,12); (1254602225,12); (1253944435,12); (1253286900,12); (1252629620,12); (1251972593,12);
(1251315820,12); (1250659301,12); (1250003035,12); (1249347023,12); (1248691265,12); (1248035759,12); (1247380506,12); (1246725506,12);
(1246070759,12); (1245416265,12); (1244762022,12); (1244108033,12); (1243454295,12); (1242800809,12); (1242147575,12); (1241494593,12);
(1240841862,12); (1240189382,12); (1239537154,12); (1238885177,12); (1238233451,12); (1237581976,12); (1236930751,12); (1236279777,12);
(1235629053,12); (1234978580,12); (1234328356,12); (1233678383,12); (1233028659,12); (1232379185,12); (1231729961,12); (1231080986,12);
(1230432260,12); (1229783783,12); (1229135555,12); (1228487576,12); (1227839845,12); (1227192363,12); (1226545130,12); (1225898144,12);
(1225251407,12); (1224604918,12); (1223958676,12); (1223312682,12); (1222666936,12); (1222021437,12); (1221376185,12); (1220731180,12);
(1220086422,12); (1219441911,12); (1218797647,12); (1218153629,12); (1217509858,12); (1216866332,12); (1216223053,12); (1215580020,12);
(1214937233,12); (1214294691,12); (1213652395,12); (1213010344,12); (1212368538,12); (1211726978,12); (1211085662,12); (1210444592,12);
(1209803766,12); (1209163184,12); (1208522847,12); (1207882754,12); (1207242906,12); (1206603301,12); (1205963940,12); (1205324823,12);
(1204685949,12); (1204047319,12); (1203408932,12); (1202770789,12); (1202132888,12); (1201495230,12); (1200857815,12); (1200220643,12);
(1199583713,12); (1198947025,12); (1198310579,12); (1197674376,12); (1197038414,12); (1196402694,12); (1195767216,12); (1195131979,12);
(1194496984,12); (1193862230,12); (1193227717,12); (1192593445,12); (1191959413,12); (1191325623,12); (1190692073,12); (1190058763,12);
(1189425693,12); (1188792864,12); (1188160274,12); (1187527925,12); (1186895815,12); (1186263945,12); (1185632314,12); (1185000922,12);
(1184369770,12); (1183738857,12); (1183108182,12); (1182477746,12); (1181847549,12); (1181217591,12); (1180587871,12); (1179958389,12);
(1179329145,12); (1178700139,12); (1178071370,12); (1177442840,12); (1176814547,12); (1176186491,12); (1175558673,12); (1174931092,12);
(1174303748,12); (1173676640,12); (1173049770,12); (1172423136,12); (1171796738,12); (1171170577,12); (1170544652,12); (1169918963,12);
(1169293510,12); (1168668293,12); (1168043311,12); (1167418566,12); (1166794055,12); (1166169780,12); (1165545739,12); (1164921934,12);
(1164298364,12); (1163675028,12); (1163051927,12); (1162429061,12); (1161806429,12); (1161184031,12); (1160561867,12); (1159939937,12);
(1159318241,12); (1158696778,12); (1158075549,12); (1157454554,12); (1156833791,12); (1156213262,12); (1155592966,12); (1154972903,12);
(1154353073,12); (1153733475,12); (1153114109,12); (1152494976,12); (1151876076,12); (1151257407,12); (1150638971,12); (1150020766,12);
(1149402793,12); (1148785051,12); (1148167541,12); (1147550262,12); (1146933215,12); (1146316398,12); (1145699813,12); (1145083458,12);
(1144467334,12); (1143851440,12); (1143235777,12); (1142620344,12); (1142005142,12); (1141390169,12); (1140775426,12); (1140160913,12);
(1139546630,12); (1138932576,12); (1138318752,12); (1137705156,12); (1137091790,12); (1136478653,12); (1135865745,12); (1135253065,12);
(1134640615,12); (1134028392,12); (1133416398,12); (1132804632,12); (1132193095,12); (1131581785,12); (1130970703,12); (1130359849,12);
(1129749222,12); (1129138823,12); (1128528651,12); (1127918707,12); (1127308989,12); (1126699499,12); (1126090235,12); (1125481198,12);
(1124872388,12); (1124263804,12); (1123655446,12); (1123047314,12); (1122439409,12); (1121831730,12); (1121224276,12); (1120617048,12);
(1120010046,12); (1119403269,12); (1118796717,12); (1118190391,12); (1117584289,12); (1116978413,12); (1116372761,12); (1115767335,12);
(1115162132,12); (1114557154,12); (1113952401,12); (1113347871,12); (1112743566,12); (1112139485,12); (1111535627,12); (1110931993,12);
(1110328583,12); (1109725396,12); (1109122433,12); (1108519692,12); (1107917175,12); (1107314881,12); (1106712809,12); (1106110960,12);
(1105509334,12); (1104907930,12); (1104306749,12); (1103705790,12); (1103105053,12); (1102504537,12); (1101904244,12); (1101304172,12);
(1100704322,12); (1100104694,12); (1099505287,12); (1098906101,12); (1098307136,12); (1097708392,12); (1097109869,12); (1096511566,12);
(1095913485,12); (1095315623,12); (1094717983,12); (1094120562,12); (1093523361,12); (1092926381,12); (1092329620,12); (1091733080,12);
(1091136758,12); (1090540657,12); (1089944774,12); (1089349111,12); (1088753668,12); (1088158443,12); (1087563437,12); (1086968650,12);
(1086374081,12); (1085779731,12); (1085185600,12); (1084591687,12); (1083997992,12); (1083404515,12); (1082811256,12); (1082218215,12);
(1081625391,12); (1081032786,12); (1080440397,12); (1079848226,12); (1079256273,12); (1078664536,12); (1078073016,12); (1077481714,12);
(1076890628,12); (1076299758,12); (1075709105,12); (1075118669,12); (1074528449,12); (1073938445,12); (1073348656,12); (1072759084,12);
(1072169728,12); (1071580588,12); (1070991662,12); (1070402953,12); (1069814459,12); (1069226180,12); (1068638116,12); (1068050267,12);
(1067462633,12); (1066875213,12); (1066288008,12); (1065701018,12); (1065114242,12); (1064527681,12); (1063941333,12); (1063355200,12);
(1062769280,12); (1062183575,12); (1061598083,12); (1061012804,12); (1060427739,12); (1059842887,12); (1059258249,12); (1058673824,12);
(1058089611,12); (1057505612,12); (1056921825,12); (1056338251,12); (1055754889,12); (1055171740,12); (1054588803,12); (1054006079,12);
(1053423566,12); (1052841265,12); (1052259176,12); (1051677299,12); (1051095633,12); (1050514179,12); (1049932936,12); (1049351905,12);
(1048771084,12); (1048190475,12); (1047610077,12); (1047029889,12); (1046449912,12); (1045870145,12); (1045290589,12); (1044711244,12);
(1044132108,12); (1043553183,12); (1042974467,12); (1042395962,12); (1041817666,12); (1041239580,12); (1040661703,12); (1040084036,12);
(1039506578,12); (1038929329,12); (1038352290,12); (1037775459,12); (1037198837,12); (1036622424,12); (1036046219,12); (1035470223,12);
(1034894436,12); (1034318856,12); (1033743485,12); (1033168322,12); (1032593367,12); (1032018620,12); (1031444080,12); (1030869748,12);
(1030295624,12); (1029721706,12); (1029147996,12); (1028574494,12); (1028001198,12); (1027428109,12); (1026855227,12); (1026282552,12);
(1025710083,12); (1025137821,12); (1024565765,12); (1023993916,12); (1023422273,12); (1022850835,12); (1022279604,12); (1021708578,12);
(1021137758,12); (1020567144,12); (1019996735,12); (1019426532,12); (1018856533,12); (1018286740,12); (1017717152,12); (1017147769,12);
(1016578591,12); (1016009617,12); (1015440848,12); (1014872284,12); (1014303923,12); (1013735767,12); (1013167816,12); (1012600068,12);
(1012032524,12); (1011465184,12); (1010898048,12); (1010331115,12); (1009764386,12); (1009197861,12); (1008631538,12); (1008065419,12);
(1007499503,12); (1006933789,12); (1006368279,12); (1005802971,12); (1005237866,12); (1004672963,12); (1004108263,12); (1003543765,12);
(1002979469,12); (1002415376,12); (1001851484,12); (1001287794,12); (1000724306,12); (1000161020,12); (999597935,12); (999035051,12);
(998472369,12); (997909888,12); (997347608,12); (996785529,12); (996223651,12); (995661974,12); (995100498,12); (994539222,12);
(993978146,12); (993417271,12); (992856596,12); (992296121,12); (991735847,12); (991175772,12); (990615897,12); (990056221,12);
(989496746,12); (988937469,12); (988378393,12); (987819515,12); (987260837,12); (986702357,12); (986144077,12); (985585995,12);
(985028113,12); (984470428,12); (983912943,12); (983355656,12); (982798567,12); (982241676,12); (981684984,12); (981128489,12);
(980572193,12); (980016094,12); (979460193,12); (978904489,12); (978348983,12); (977793674,12); (977238563,12); (976683649,12);
(976128931,12); (975574411,12); (975020088,12); (974465961,12); (973912031,12); (973358298,12); (972804761,12); (972251420,12);
(971698275,12); (971145327,12); (970592574,12); (970040018,12); (969487657,12); (968935492,12); (968383523,12); (967831749,12);
(967280171,12); (966728787,12); (966177599,12); (965626606,12); (965075808,12); (964525205,12); (963974797,12); (963424583,12);
(962874564,12); (962324739,12); (961775109,12); (961225673,12); (960676431,12); (960127383,12); (959578529,12); (959029869,12);
(958481403,12); (957933130,12); (957385051,12); (956837165,12); (956289473,12); (955741973,12); (955194667,12); (954647554,12);
(954100634,12); (953553907,12); (953007372,12); (952461030,12); (951914880,12); (951368923,12); (950823158,12); (950277586,12);
(949732205,12); (949187017,12); (948642020,12); (948097215,12); (947552602,12); (947008181,12); (946463951,12); (945919912,12);
(945376065,12); (944832409,12); (944288944,12); (943745670,12); (943202587,12); (942659694,12); (942116993,12); (941574481,12);
(941032161,12); (940490031,12); (939948091,12); (939406341,12); (938864781,12); (938323412,12); (937782232,12); (937241242,12);
(936700442,12); (936159831,12); (935619410,12); (935079178,12); (934539135,12); (933999282,12); (933459618,12); (932920142,12);
(932380856,12); (931841758,12); (931302850,12); (930764129,12); (930225597,12); (929687254,12); (929149099,12); (928611132,12);
(928073353,12); (927535762,12); (926998360,12); (926461144,12); (925924117,12); (925387277,12); (924850625,12); (924314160,12);
(923777883,12); (923241792,12); (922705889,12); (922170173,12); (921634644,12); (921099301,12); (920564145,12); (920029176,12);
(919494394,12); (918959798,12); (918425388,12); (917891164,12); (917357127,12); (916823275,12); (916289610,12); (915756130,12);
(915222837,12); (914689728,12); (914156806,12); (913624069,12); (913091517,12); (912559150,12); (912026969,12); (911494973,12);
(910963161,12); (910431535,12); (909900093,12); (909368836,12); (908837764,12); (908306876,12); (907776173,12); (907245653,12);
(906715319,12); (906185168,12); (905655201,12); (905125418,12); (904595819,12); (904066404,12); (903537172,12); (903008124,12);
(902479259,12); (901950578,12); (901422079,12); (900893764,12); (900365633,12); (899837684,12); (899309918,12); (898782334,12);
(898254934,12); (897727716,12); (897200680,12); (896673827,12); (896147156,12); (895620667,12); (895094361,12); (894568236,12);
(894042294,12); (893516533,12); (892990954,12); (892465557,12); (891940341,12); (891415306,12); (890890453,12); (890365782,12);
(889841291,12); (889316982,12); (888792853,12); (888268905,12); (887745139,12); (887221553,12); (886698147,12); (886174922,12);
(885651877,12); (885129013,12); (884606329,12); (884083825,12); (883561501,12); (883039358,12); (882517394,12); (881995609,12);
(881474005,12); (880952580,12); (880431334,12); (879910268,12); (879389381,12); (878868674,12); (878348145,12); (877827796,12);
(877307626,12); (876787634,12); (876267821,12); (875748187,12); (875228731,12); (874709454,12); (874190355,12); (873671435,12);
(873152693,12); (872634128,12); (872115742,12); (871597534,12); (871079504,12); (870561651,12); (870043976,12); (869526478,12);
(869009158,12); (868492016,12); (867975051,12); (867458262,12); (866941651,12); (866425217,12); (865908960,12); (865392880,12);
(864876977,12); (864361250,12); (863845699,12); (863330326,12); (862815128,12); (862300107,12); (861785262,12); (861270593,12);
(860756100,12); (860241783,12); (859727642,12); (859213677,12); (858699887,12); (858186273,12); (857672834,12); (857159571,12);
(856646483,12); (856133570,12); (855620833,12); (855108270,12); (854595882,12); (854083669,12); (853571631,12); (853059768,12);
(852548079,12); (852036565,12); (851525225,12); (851014059,12); (850503068,12); (849992250,12); (849481607,12); (848971138,12);
(848460842,12); (847950721,12); (847440773,12); (846930998,12); (846421397,12); (845911970,12); (845402716,12); (844893635,12);
(844384727,12); (843875993,12); (843367431,12); (842859042,12); (842350826,12); (841842783,12); (841334913,12); (840827214,12);
(840319689,12); (839812336,12); (839305155,12); (838798146,12); (838291309,12); (837784644,12); (837278152,12); (836771831,12);
(836265682,12); (835759704,12); (835253898,12); (834748264,12); (834242801,12); (833737509,12); (833232388,12); (832727439,12);
(832222661,12); (831718054,12); (831213617,12); (830709351,12); (830205256,12); (829701332,12); (829197578,12); (828693995,12);
(828190582,12); (827687339,12); (827184267,12); (826681364,12); (826178632,12); (825676069,12); (825173677,12); (824671454,12);
(824169401,12); (823667517,12); (823165803,12); (822664258,12); (822162883,12); (821661676,12); (821160639,12); (820659772,12);
(820159073,12); (819658542,12); (819158181,12); (818657989,12); (818157965,12); (817658110,12); (817158423,12); (816658904,12);
(816159554,12); (815660372,12); (815161358,12); (814662513,12); (814163835,12); (813665325,12); (813166983,12); (812668808,12);
(812170801,12); (811672962,12); (811175290,12); (810677786,12); (810180449,12); (809683279,12); (809186276,12); (808689440,12);
(808192771,12); (807696269,12); (807199934,12); (806703766,12); (806207764,12); (805711928,12); (805216259,12); (804720757,12);
(804225420,12); (803730250,12); (803235246,12); (802740408,12); (802245736,12); (801751230,12); (801256890,12); (800762715,12);
(800268706,12); (799774862,12); (799281184,12); (798787671,12); (798294324,12); (797801141,12); (797308124,12); (796815272,12);
(796322585,12); (795830062,12); (795337705,12); (794845512,12); (794353484,12); (793861620,12); (793369921,12); (792878386,12);
(792387015,12); (791895809,12); (791404766,12); (790913888,12); (790423174,12); (789932623,12); (789442236,12); (788952013,12);
(788461954,12); (787972058,12); (787482326,12); (786992757,12); (786503351,12); (786014109,12); (785525029,12); (785036113,12);
(784547360,12); (784058769,12); (783570342,12); (783082077,12); (782593975,12); (782106035,12); (781618258,12); (781130643,12);
(780643191,12); (780155901,12); (779668773,12); (779181807,12); (778695003,12); (778208361,12); (777721880,12); (777235562,12);
(776749405,12); (776263410,12); (775777576,12); (775291904,12); (774806393,12); (774321043,12); (773835855,12); (773350828,12);
(772865961,12); (772381256,12); (771896712,12); (771412328,12); (770928105,12); (770444043,12); (769960141,12); (769476400,12);
(768992819,12); (768509398,12); (768026138,12); (767543038,12); (767060097,12); (766577317,12); (766094697,12); (765612237,12);
(765129936,12); (764647795,12); (764165814,12); (763683992,12); (763202329,12); (762720826,12); (762239483,12); (761758298,12);
(761277273,12); (760796406,12); (760315699,12); (759835150,12); (759354760,12); (758874529,12); (758394457,12); (757914543,12);
(757434788,12); (756955191,12); (756475752,12); (755996472,12); (755517350,12); (755038386,12); (754559580,12); (754080932,12);
(753602442,12); (753124109,12); (752645935,12); (752167917,12); (751690058,12); (751212356,12); (750734811,12); (750257424,12);
(749780194,12); (749303121,12); (748826205,12); (748349446,12); (747872844,12); (747396399,12); (746920111,12); (746443979,12);
(745968005,12); (745492186,12); (745016524,12); (744541019,12); (744065669,12); (743590476,12); (743115440,12); (742640559,12);
(742165834,12); (741691265,12); (741216852,12); (740742595,12); (740268494,12); (739794548,12); (739320758,12); (738847123,12);
(738373643,12); (737900319,12); (737427150,12); (736954136,12); (736481278,12); (736008574,12); (735536025,12); (735063632,12);
(734591393,12); (734119308,12); (733647378,12); (733175603,12); (732703983,12); (732232516,12); (731761204,12); (731290047,12);
(730819043,12); (730348194,12); (729877498,12); (729406957,12); (728936569,12); (728466335,12); (727996255,12); (727526329,12);
(727056556,12); (726586936,12); (726117471,12); (725648158,12); (725178999,12); (724709992,12); (724241139,12); (723772439,12);
(723303892,12); (722835498,12); (722367257,12); (721899168,12); (721431233,12); (720963449,12); (720495818,12); (720028340,12);
(719561014,12); (719093841,12); (718626819,12); (718159950,12); (717693233,12); (717226668,12); (716760254,12); (716293993,12)].

(** entries 6144..8191 *)
Definition RECIPROCAL_3 : list (Z * Z) := [
(715827883,12); (715361925,12); (714896119,12); (714430464,12); (713964961,12); (713499609,12); (713034409,12); (712569359,12);
(712104461,12); (711639714,12); (711175118,12); (710710673,12); (710246379,12); (709782236,12); (709318243,12); (708854402,12);
(708390710,12); (707927170,12); (707463779,12); (707000539,12); (706537450,12); (706074511,12); (705611721,12); (705149082,12);
(704686593,12); (704224254,12); (703762065,12); (703300025,12); (702838135,12); (702376395,12); (701914805,12); (701453364,12);
(700992072,12); (700530930,12); (700069937,12); (699609093,12); (699148399,12); (698687853,12); (698227456,12); (697767209,12);
(697307110,12); (696847160,12); (696387359,12); (695927706,12); (695468202,12); (695008846,12); (694549639,12); (694090580,12);
(693631670,12); (693172907,12); (692714293,12); (692255827,12); (691797509,12); (691339339,12); (690881316,12); (690423441,12);
(689965715,12); (689508135,12); (689050703,12); (688593419,12); (688136282,12); (687679293,12); (687222451,12); (686765755,12);
(686309208,12); (685852807,12); (685396553,12); (684940446,12); (684484486,12); (684028673,12); (683573006,12); (683117486,12);
(682662113,12); (682206886,12); (681751805,12); (681296871,12); (680842083,12); (680387441,12); (679932946,12); (679478597,12);
(679024393,12); (678570336,12); (678116424,12); (677662658,12); (677209038,12); (676755563,12); (676302234,12); (675849051,12);
(675396013,12); (674943120,12); (674490373,12); (674037771,12); (673585314,12); (673133002,12); (672680835,12); (672228814,12);
(671776937,12); (671325204,12); (670873617,12); (670422174,12); (669970876,12); (669519722,12); (669068713,12); (668617848,12);
(668167128,12); (667716552,12); (667266120,12); (666815832,12); (666365688,12); (665915688,12); (665465832,12); (665016120,12);
(664566551,12); (664117127,12); (663667846,12); (663218708,12); (662769714,12); (662320864,12); (661872156,12); (661423593,12);
(660975172,12); (660526894,12); (660078760,12); (659630768,12); (659182920,12); (658735214,12); (658287651,12); (657840231,12);
(657392954,12); (656945819,12); (656498827,12); (656051977,12); (655605270,12); (655158705,12); (654712282,12); (654266001,12);
(653819863,12); (653373866,12); (652928012,12); (652482299,12); (652036729,12); (651591300,12); (651146013,12); (650700867,12);
(650255863,12); (649811001,12); (649366280,12); (648921701,12); (648477262,12); (648032965,12); (647588810,12); (647144795,12);
(646700921,12); (646257189,12); (645813597,12); (645370146,12); (644926836,12); (644483666,12); (644040638,12); (643597749,12);
(643155002,12); (642712394,12); (642269928,12); (641827601,12); (641385415,12); (640943369,12); (640501463,12); (640059697,12);
(639618071,12); (639176584,12); (638735238,12); (638294032,12); (637852965,12); (637412038,12); (636971250,12); (636530602,12);
(636090094,12); (635649725,12); (635209495,12); (634769404,12); (634329453,12); (633889640,12); (633449967,12); (633010433,12);
(632571037,12); (632131781,12); (631692663,12); (631253684,12); (630814843,12); (630376142,12); (629937578,12); (629499154,12);
(629060867,12); (628622719,12); (628184709,12); (627746838,12); (627309104,12); (626871509,12); (626434051,12); (625996732,12);
(625559550,12); (625122506,12); (624685600,12); (624248832,12); (623812201,12); (623375707,12); (622939352,12); (622503133,12);
(622067052,12); (621631108,12); (621195302,12); (620759633,12); (620324100,12); (619888705,12); (619453447,12); (619018325,12);
(618583341,12); (618148493,12); (617713782,12); (617279207,12); (616844769,12); (616410468,12); (615976303,12); (615542274,12);
(615108382,12); (614674626,12); (614241006,12); (613807523,12); (613374175,12); (612940963,12); (612507888,12); (612074948,12);
(611642144,12); (611209475,12); (610776943,12); (610344546,12); (609912284,12); (609480158,12); (609048168,12); (608616312,12);
(608184593,12); (607753008,12); (607321558,12); (606890244,12); (606459065,12); (606028020,12); (605597111,12); (605166336,12);
(604735696,12); (604305191,12); (603874821,12); (603444585,12); (603014483,12); (602584516,12); (602154684,12); (601724986,12);
(601295422,12); (600865992,12); (600436697,12); (600007535,12); (599578508,12); (599149615,12); (598720855,12); (598292230,12);
(597863738,12); (597435380,12); (597007155,12); (596579064,12); (596151107,12); (595723283,12); (595295592,12); (594868035,12);
(594440611,12); (594013321,12); (593586163,12); (593159139,12); (592732247,12); (592305489,12); (591878863,12); (591452371,12);
(591026011,12); (590599784,12); (590173689,12); (589747727,12); (589321898,12); (588896201,12); (588470636,12); (588045204,12);
(587619904,12); (587194737,12); (586769701,12); (586344798,12); (585920026,12); (585495387,12); (585070879,12); (584646504,12);
(584222260,12); (583798148,12); (583374168,12); (582950319,12); (582526601,12); (582103016,12); (581679561,12); (581256238,12);
(580833047,12); (580409986,12); (579987057,12); (579564259,12); (579141592,12); (578719056,12); (578296651,12); (577874376,12);
(577452233,12); (577030220,12); (576608338,12); (576186587,12); (575764966,12); (575343476,12); (574922116,12); (574500887,12);
(574079788,12); (573658819,12); (573237980,12); (572817272,12); (572396693,12); (571976245,12); (571555927,12); (571135738,12);
(570715680,12); (570295751,12); (569875952,12); (569456282,12); (569036742,12); (568617332,12); (568198051,12); (567778900,12);
(567359878,12); (566940985,12); (566522222,12); (566103587,12); (565685082,12); (565266706,12); (564848459,12); (564430341,12);
(564012352,12); (563594492,12); (563176760,12); (562759157,12); (562341683,12); (561924337,12); (561507120,12); (561090031,12);
(560673071,12); (560256239,12); (559839536,12); (559422960,12); (559006513,12); (558590194,12); (558174003,12); (557757940,12);
(557342005,12); (556926198,12); (556510519,12); (556094967,12); (555679543,12); (555264247,12); (554849078,12); (554434037,12);
(554019123,12); (553604337,12); (553189678,12); (552775147,12); (552360742,12); (551946465,12); (551532315,12); (551118292,12);
(550704396,12); (550290627,12); (549876985,12); (549463470,12); (549050081,12); (548636819,12); (548223684,12); (547810675,12);
(547397793,12); (546985038,12); (546572408,12); (546159905,12); (545747529,12); (545335279,12); (544923155,12); (544511157,12);
(544099285,12); (543687539,12); (543275919,12); (542864425,12); (542453057,12); (542041814,12); (541630697,12); (541219706,12);
(540808841,12); (540398101,12); (539987487,12); (539576998,12); (539166634,12); (538756396,12); (538346283,12); (537936295,12);
(537526433,12); (537116695,12); (536707082,12); (536297595,12); (535888232,12); (535478995,12); (535069882,12); (534660893,12);
(534252030,12); (533843291,12); (533434677,12); (533026187,12); (532617822,12); (532209581,12); (531801464,12); (531393472,12);
(530985604,12); (530577860,12); (530170241,12); (529762745,12); (529355373,12); (528948126,12); (528541002,12); (528134002,12);
(527727126,12); (527320373,12); (526913744,12); (526507239,12); (526100858,12); (525694600,12); (525288465,12); (524882454,12);
(524476566,12); (524070801,12); (523665160,12); (523259641,12); (522854246,12); (522448974,12); (522043825,12); (521638799,12);
(521233896,12); (520829115,12); (520424458,12); (520019923,12); (519615510,12); (519211221,12); (518807053,12); (518403009,12);
(517999087,12); (517595287,12); (517191609,12); (516788054,12); (516384621,12); (515981310,12); (515578121,12); (515175055,12);
(514772110,12); (514369287,12); (513966586,12); (513564007,12); (513161550,12); (512759214,12); (512357000,12); (511954908,12);
(511552937,12); (511151088,12); (510749360,12); (510347754,12); (509946269,12); (509544905,12); (509143662,12); (508742541,12);
(508341540,12); (507940661,12); (507539903,12); (507139265,12); (506738749,12); (506338353,12); (505938079,12); (505537925,12);
(505137891,12); (504737978,12); (504338186,12); (503938514,12); (503538963,12); (503139532,12); (502740222,12); (502341032,12);
(501941962,12); (501543012,12); (501144182,12); (500745473,12); (500346883,12); (499948413,12); (499550064,12); (499151834,12);
(498753724,12); (498355734,12); (497957863,12); (497560112,12); (497162481,12); (496764969,12); (496367576,12); (495970304,12);
(495573150,12); (495176116,12); (494779201,12); (494382405,12); (493985729,12); (493589171,12); (493192733,12); (492796413,12);
(492400213,12); (492004131,12); (491608168,12); (491212324,12); (490816599,12); (490420993,12); (490025505,12); (489630135,12);
(489234884,12); (488839752,12); (488444738,12); (488049842,12); (487655065,12); (487260406,12); (486865865,12); (486471442,12);
(486077138,12); (485682951,12); (485288882,12); (484894932,12); (484501099,12); (484107384,12); (483713787,12); (483320307,12);
(482926945,12); (482533701,12); (482140574,12); (481747565,12); (481354674,12); (480961899,12); (480569242,12); (480176703,12);
(479784280,12); (479391975,12); (478999787,12); (478607716,12); (478215762,12); (477823925,12); (477432205,12); (477040602,12);
(476649116,12); (476257746,12); (475866493,12); (475475357,12); (475084338,12); (474693435,12); (474302648,12); (473911978,12);
(473521425,12); (473130987,12); (472740667,12); (472350462,12); (471960373,12); (471570401,12); (471180545,12); (470790805,12);
(470401181,12); (470011672,12); (469622280,12); (469233003,12); (468843843,12); (468454798,12); (468065868,12); (467677055,12);
(467288357,12); (466899774,12); (466511307,12); (466122955,12); (465734719,12); (465346598,12); (464958593,12); (464570702,12);
(464182927,12); (463795267,12); (463407722,12); (463020291,12); (462632976,12); (462245776,12); (461858691,12); (461471720,12);
(461084864,12); (460698123,12); (460311497,12); (459924985,12); (459538588,12); (459152305,12); (458766137,12); (458380083,12);
(457994143,12); (457608318,12); (457222607,12); (456837010,12); (456451528,12); (456066159,12); (455680905,12); (455295764,12);
(454910738,12); (454525825,12); (454141026,12); (453756341,12); (453371770,12); (452987313,12); (452602969,12); (452218738,12);
(451834621,12); (451450618,12); (451066728,12); (450682952,12); (450299289,12); (449915739,12); (449532302,12); (449148979,12);
(448765769,12); (448382672,12); (447999687,12); (447616816,12); (447234058,12); (446851413,12); (446468880,12); (446086461,12);
(445704154,12); (445321960,12); (444939878,12); (444557909,12); (444176053,12); (443794309,12); (443412677,12); (443031158,12);
(442649751,12); (442268457,12); (441887275,12); (441506205,12); (441125247,12); (440744401,12); (440363667,12); (439983045,12);
(439602536,12); (439222138,12); (438841852,12); (438461677,12); (438081615,12); (437701664,12); (437321825,12); (436942097,12);
(436562481,12); (436182977,12); (435803584,12); (435424302,12); (435045132,12); (434666073,12); (434287125,12); (433908289,12);
(433529563,12); (433150949,12); (432772446,12); (432394054,12); (432015773,12); (431637602,12); (431259543,12); (430881594,12);
(430503756,12); (430126029,12); (429748413,12); (429370907,12); (428993512,12); (428616227,12); (428239053,12); (427861989,12);
(427485036,12); (427108193,12); (426731460,12); (426354837,12); (425978325,12); (425601923,12); (425225631,12); (424849449,12);
(424473377,12); (424097414,12); (423721562,12); (423345820,12); (422970187,12); (422594664,12); (422219251,12); (421843948,12);
(421468754,12); (421093670,12); (420718695,12); (420343829,12); (419969074,12); (419594427,12); (419219890,12); (418845462,12);
(418471143,12); (418096934,12); (417722833,12); (417348842,12); (416974960,12); (416601186,12); (416227522,12); (415853966,12);
(415480520,12); (415107182,12); (414733953,12); (414360833,12); (413987821,12); (413614918,12); (413242123,12); (412869437,12);
(412496860,12); (412124390,12); (411752030,12); (411379777,12); (411007633,12); (410635597,12); (410263669,12); (409891850,12);
(409520138,12); (409148535,12); (408777039,12); (408405651,12); (408034372,12); (407663200,12); (407292136,12); (406921180,12);
(406550331,12); (406179590,12); (405808957,12); (405438431,12); (405068013,12); (404697702,12); (404327499,12); (403957403,12);
(403587415,12); (403217533,12); (402847759,12); (402478093,12); (402108533,12); (401739080,12); (401369735,12); (401000496,12);
(400631365,12); (400262340,12); (399893422,12); (399524611,12); (399155907,12); (398787310,12); (398418819,12); (398050435,12);
(397682158,12); (397313987,12); (396945922,12); (396577964,12); (396210113,12); (395842367,12); (395474728,12); (395107196,12);
(394739769,12); (394372449,12); (394005235,12); (393638127,12); (393271125,12); (392904229,12); (392537439,12); (392170755,12);
(391804176,12); (391437704,12); (391071337,12); (390705076,12); (390338921,12); (389972871,12); (389606927,12); (389241089,12);
(388875355,12); (388509728,12); (388144206,12); (387778789,12); (387413477,12); (387048271,12); (386683170,12); (386318174,12);
(385953283,12); (385588497,12); (385223816,12); (384859241,12); (384494770,12); (384130404,12); (383766143,12); (383401987,12);
(383037935,12); (382673989,12); (382310147,12); (381946409,12); (381582776,12); (381219248,12); (380855824,12); (380492505,12);
(380129290,12); (379766179,12); (379403173,12); (379040271,12); (378677473,12); (378314780,12); (377952190,12); (377589705,12);
(377227323,12); (376865046,12); (376502873,12); (376140803,12); (375778837,12); (375416976,12); (375055217,12); (374693563,12);
(374332013,12); (373970566,12); (373609222,12); (373247982,12); (372886846,12); (372525813,12); (372164884,12); (371804058,12);
(371443335,12); (371082715,12); (370722199,12); (370361786,12); (370001476,12); (369641269,12); (369281166,12); (368921165,12);
(368561267,12); (368201473,12); (367841781,12); (367482192,12); (367122705,12); (366763322,12); (366404041,12); (366044863,12);
(365685787,12); (365326814,12); (364967944,12); (364609176,12); (364250511,12); (363891948,12); (363533487,12); (363175129,12);
(362816873,12); (362458719,12); (362100667,12); (361742717,12); (361384870,12); (361027125,12); (360669481,12); (360311940,12);
(359954500,12); (359597163,12); (359239927,12); (358882793,12); (358525761,12); (358168830,12); (357812001,12); (357455274,12);
(357098648,12); (356742124,12); (356385701,12); (356029380,12); (355673160,12); (355317042,12); (354961025,12); (354605109,12);
(354249294,12); (353893580,12); (353537968,12); (353182457,12); (352827047,12); (352471738,12); (352116529,12); (351761422,12);
(351406416,12); (351051510,12); (350696705,12); (350342001,12); (349987398,12); (349632895,12); (349278493,12); (348924192,12);
(348569991,12); (348215891,12); (347861891,12); (347507991,12); (347154192,12); (346800493,12); (346446895,12); (346093396,12);
(345739998,12); (345386700,12); (345033502,12); (344680405,12); (344327407,12); (343974509,12); (343621711,12); (343269013,12);
(342916415,12); (342563917,12); (342211519,12); (341859220,12); (341507021,12); (341154922,12); (340802922,12); (340451021,12);
(340099221,12); (339747520,12); (339395918,12); (339044415,12); (338693012,12); (338341709,12); (337990504,12); (337639399,12);
(337288393,12); (336937486,12); (336586678,12); (336235969,12); (335885359,12); (335534849,12); (335184437,12); (334834124,12);
(334483910,12); (334133794,12); (333783778,12); (333433860,12); (333084041,12); (332734320,12); (332384698,12); (332035175,12);
(331685750,12); (331336424,12); (330987196,12); (330638066,12); (330289035,12); (329940102,12); (329591267,12); (329242531,12);
(328893893,12); (328545352,12); (328196910,12); (327848566,12); (327500320,12); (327152173,12); (326804122,12); (326456170,12);
(326108316,12); (325760560,12); (325412901,12); (325065340,12); (324717876,12); (324370511,12); (324023243,12); (323676072,12);
(323328999,12); (322982024,12); (322635146,12); (322288365,12); (321941682,12); (321595096,12); (321248607,12); (320902215,12);
(320555921,12); (320209724,12); (319863624,12); (319517621,12); (319171715,12); (318825906,12); (318480194,12); (318134579,12);
(317789061,12); (317443639,12); (317098314,12); (316753087,12); (316407955,12); (316062921,12); (315717983,12); (315373142,12);
(315028397,12); (314683748,12); (314339197,12); (313994741,12); (313650382,12); (313306120,12); (312961953,12); (312617883,12);
(312273909,12); (311930031,12); (311586250,12); (311242564,12); (310898975,12); (310555481,12); (310212084,12); (309868782,12);
(309525577,12); (309182467,12); (308839453,12); (308496535,12); (308153712,12); (307810985,12); (307468354,12); (307125819,12);
(306783379,12); (306441034,12); (306098785,12); (305756632,12); (305414574,12); (305072611,12); (304730744,12); (304388972,12);
(304047295,12); (303705714,12); (303364227,12); (303022836,12); (302681540,12); (302340339,12); (301999233,12); (301658221,12);
(301317305,12); (300976484,12); (300635758,12); (300295126,12); (299954589,12); (299614147,12); (299273800,12); (298933547,12);
(298593389,12); (298253325,12); (297913356,12); (297573482,12); (297233702,12); (296894016,12); (296554425,12); (296214928,12);
(295875525,12); (295536217,12); (295197003,12); (294857883,12); (294518857,12); (294179926,12); (293841088,12); (293502345,12);
(293163695,12); (292825139,12); (292486678,12); (292148310,12); (291810036,12); (291471856,12); (291133769,12); (290795777,12);
(290457878,12); (290120072,12); (289782360,12); (289444742,12); (289107217,12); (288769786,12); (288432448,12); (288095204,12);
(287758053,12); (287420995,12); (287084031,12); (286747160,12); (286410382,12); (286073697,12); (285737106,12); (285400607,12);
(285064202,12); (284727889,12); (284391670,12); (284055543,12); (283719510,12); (283383569,12); (283047721,12); (282711966,12);
(282376303,12); (282040734,12); (281705257,12); (281369872,12); (281034581,12); (280699381,12); (280364275,12); (280029261,12);
(279694339,12); (279359509,12); (279024772,12); (278690128,12); (278355575,12); (278021115,12); (277686747,12); (277352472,12);
(277018288,12); (276684197,12); (276350197,12); (276016290,12); (275682474,12); (275348751,12); (275015119,12); (274681580,12);
(274348132,12); (274014776,12); (273681511,12); (273348339,12); (273015258,12); (272682269,12); (272349371,12); (272016565,12);
(271683850,12); (271351227,12); (271018696,12); (270686256,12); (270353907,12); (270021649,12); (269689483,12); (269357408,12);
(269025425,12); (268693532,12); (268361731,12); (268030021,12); (267698401,12); (267366873,12); (267035436,12); (266704090,12);
(266372835,12); (266041671,12); (265710597,12); (265379615,12); (265048723,12); (264717922,12); (264387211,12); (264056592,12);
(263726063,12); (263395624,12); (263065276,12); (262735019,12); (262404852,12); (262074775,12); (261744789,12); (261414893,12);
(261085088,12); (260755373,12); (260425748,12); (260096214,12); (259766769,12); (259437415,12); (259108151,12); (258778977,12);
(258449892,12); (258120898,12); (257791994,12); (257463180,12); (257134456,12); (256805821,12); (256477277,12); (256148822,12);
(255820457,12); (255492182,12); (255163996,12); (254835900,12); (254507893,12); (254179976,12); (253852149,12); (253524411,12);
(253196762,12); (252869203,12); (252541734,12); (252214353,12); (251887062,12); (251559861,12); (251232748,12); (250905725,12);
(250578790,12); (250251945,12); (249925189,12); (249598522,12); (249271944,12); (248945455,12); (248619055,12); (248292744,12);
(247966522,12); (247640388,12); (247314344,12); (246988388,12); (246662521,12); (246336742,12); (246011052,12); (245685451,12);
(245359939,12); (245034514,12); (244709179,12); (244383932,12); (244058773,12); (243733703,12); (243408721,12); (243083827,12);
(242759022,12); (242434304,12); (242109676,12); (241785135,12); (241460682,12); (241136318,12); (240812041,12); (240487853,12);
(240163753,12); (239839740,12); (239515816,12); (239191979,12); (238868230,12); (238544570,12); (238220996,12); (237897511,12);
(237574113,12); (237250803,12); (236927581,12); (236604446,12); (236281399,12); (235958440,12); (235635567,12); (235312783,12);
(234990085,12); (234667476,12); (234344953,12); (234022518,12); (233700170,12); (233377909,12); (233055736,12); (232733650,12);
(232411651,12); (232089739,12); (231767914,12); (231446176,12); (231124525,12); (230802961,12); (230481484,12); (230160094,12);
(229838791,12); (229517575,12); (229196445,12); (228875402,12); (228554446,12); (228233577,12); (227912794,12); (227592098,12);
(227271488,12); (226950965,12); (226630529,12); (226310178,12); (225989915,12); (225669738,12); (225349647,12); (225029642,12);
(224709724,12); (224389892,12); (224070147,12); (223750487,12); (223430914,12); (223111427,12); (222792025,12); (222472710,12);
(222153481,12); (221834338,12); (221515281,12); (221196310,12); (220877425,12); (220558625,12); (220239912,12); (219921284,12);
(219602742,12); (219284285,12); (218965915,12); (218647629,12); (218329430,12); (218011316,12); (217693288,12); (217375345,12);
(217057488,12); (216739716,12); (216422029,12); (216104428,12); (215786912,12); (215469481,12); (215152136,12); (214834876,12);
(214517701,12); (214200611,12); (213883607,12); (213566687,12); (213249853,12); (212933103,12); (212616439,12); (212299859,12);
(211983365,12); (211666955,12); (211350630,12); (211034390,12); (210718235,12); (210402165,12); (210086179,12); (209770278,12);
(209454461,12); (209138730,12); (208823082,12); (208507520,12); (208192041,12); (207876648,12); (207561338,12); (207246113,12);
(206930973,12); (206615917,12); (206300945,12); (205986057,12); (205671254,12); (205356535,12); (205041900,12); (204727349,12);
(204412883,12); (204098500,12); (203784201,12); (203469987,12); (203155856,12); (202841809,12); (202527847,12); (202213968,12);
(201900173,12); (201586461,12); (201272834,12); (200959290,12); (200645830,12); (200332453,12); (200019161,12); (199705951,12);
(199392826,12); (199079784,12); (198766825,12); (198453950,12); (198141158,12); (197828450,12); (197515825,12); (197203284,12);
(196890825,12); (196578450,12); (196266159,12); (195953950,12); (195641825,12); (195329782,12); (195017823,12); (194705947,12);
(194394154,12); (194082444,12); (193770817,12); (193459273,12); (193147811,12); (192836433,12); (192525137,12); (192213925,12);
(191902795,12); (191591747,12); (191280783,12); (190969901,12); (190659102,12); (190348385,12); (190037751,12); (189727199,12);
(189416730,12); (189106344,12); (188796040,12); (188485818,12); (188175679,12); (187865622,12); (187555647,12); (187245755,12);
(186935944,12); (186626216,12); (186316571,12); (186007007,12); (185697525,12); (185388126,12); (185078809,12); (184769573,12);
(184460420,12); (184151348,12); (183842359,12); (183533451,12); (183224625,12); (182915881,12); (182607219,12); (182298639,12);
(181990140,12); (181681723,12); (181373388,12); (181065134,12); (180756962,12); (180448871,12); (180140862,12); (179832935,12);
(179525089,12); (179217324,12); (178909641,12); (178602039,12); (178294518,12); (177987079,12); (177679721,12); (177372444,12);
(177065248,12); (176758134,12); (176451101,12); (176144149,12); (175837278,12); (175530488,12); (175223778,12); (174917150,12);
(174610603,12); (174304137,12); (173997752,12); (173691447,12); (173385224,12); (173079081,12); (172773019,12); (172467038,12);
(172161137,12); (171855317,12); (171549577,12); (171243919,12); (170938340,12); (170632843,12); (170327426,12); (170022089,12);
(169716833,12); (169411657,12); (169106561,12); (168801546,12); (168496611,12); (168191757,12); (167886982,12); (167582288,12);
(167277674,12); (166973140,12); (166668687,12); (166364313,12); (166060020,12); (165755806,12); (165451673,12); (165147619,12);
(164843645,12); (164539752,12); (164235938,12); (163932204,12); (163628550,12); (163324975,12); (163021480,12); (162718065,12);
(162414730,12); (162111475,12); (161808298,12); (161505202,12); (161202185,12); (160899248,12); (160596390,12); (160293611,12);
(159990912,12); (159688293,12); (159385753,12); (159083292,12); (158780910,12); (158478608,12); (158176385,12); (157874241,12);
(157572176,12); (157270190,12); (156968284,12); (156666457,12); (156364708,12); (156063039,12); (155761449,12); (155459937,12);
(155158505,12); (154857151,12); (154555877,12); (154254681,12); (153953564,12); (153652526,12); (153351566,12); (153050685,12);
(152749883,12); (152449160,12); (152148515,12); (151847949,12); (151547461,12); (151247052,12); (150946722,12); (150646469,12);
(150346296,12); (150046200,12); (149746183,12); (149446245,12); (149146384,12); (148846602,12); (148546899,12); (148247273,12);
(147947726,12); (147648257,12); (147348865,12); (147049553,12); (146750318,12); (146451161,12); (146152082,12); (145853081,12);
(145554158,12); (145255313,12); (144956546,12); (144657857,12); (144359245,12); (144060712,12); (143762256,12); (143463877,12);
(143165577,12); (142867354,12); (142569209,12); (142271142,12); (141973152,12); (141675239,12); (141377404,12); (141079647,12);
(140781967,12); (140484365,12); (140186839,12); (139889392,12); (139592021,12); (139294728,12); (138997512,12); (138700374,12);
(138403313,12); (138106328,12); (137809421,12); (137512592,12); (137215839,12); (136919163,12); (136622564,12); (136326043,12);
(136029598,12); (135733230,12); (135436940,12); (135140726,12); (134844589,12); (134548528,12); (134252545,12); (133956638,12);
(133660808,12); (133365055,12); (133069379,12); (132773779,12); (132478256,12); (132182809,12); (131887439,12); (131592145,12);
(131296928,12); (131001788,12); (130706723,12); (130411736,12); (130116824,12); (129821989,12); (129527231,12); (129232548,12);
(128937942,12); (128643412,12); (128348959,12); (128054581,12); (127760280,12); (127466054,12); (127171905,12); (126877832,12);
(126583835,12); (126289914,12); (125996069,12); (125702300,12); (125408606,12); (125114989,12); (124821447,12); (124527982,12);
(124234592,12); (123941278,12); (123648039,12); (123354876,12); (123061789,12); (122768778,12); (122475842,12); (122182982,12);
(121890197,12); (121597488,12); (121304854,12); (121012296,12); (120719814,12); (120427406,12); (120135074,12); (119842818,12);
(119550637,12); (119258531,12); (118966500,12); (118674544,12); (118382664,12); (118090859,12); (117799129,12); (117507474,12);
(117215895,12); (116924390,12); (116632961,12); (116341606,12); (116050326,12); (115759122,12); (115467992,12); (115176937,12);
(114885957,12); (114595052,12); (114304221,12); (114013466,12); (113722785,12); (113432179,12); (113141647,12); (112851191,12);
(112560808,12); (112270501,12); (111980268,12); (111690109,12); (111400025,12); (111110016,12); (110820081,12); (110530220,12);
(110240434,12); (109950722,12); (109661085,12); (109371522,12); (109082033,12); (108792618,12); (108503278,12); (108214012,12);
(107924820,12); (107635702,12); (107346658,12); (107057688,12); (106768793,12); (106479971,12); (106191224,12); (105902550,12);
(105613950,12); (105325425,12); (105036973,12); (104748595,12); (104460291,12); (104172060,12); (103883904,12); (103595821,12);
(103307812,12); (103019876,12); (102732014,12); (102444226,12); (102156512,12); (101868871,12); (101581303,12); (101293809,12);
(101006389,12); (100719042,12); (100431768,12); (100144568,12); (99857441,12); (99570388,12); (99283408,12); (98996501,12);
(98709668,12); (98422907,12); (98136220,12); (97849606,12); (97563066,12); (97276598,12); (96990204,12); (96703882,12);
(96417634,12); (96131458,12); (95845356,12); (95559326,12); (95273370,12); (94987486,12); (94701676,12); (94415938,12);
(94130273,12); (93844680,12); (93559161,12); (93273714,12); (92988340,12); (92703038,12); (92417810,12); (92132654,12);
(91847570,12); (91562559,12); (91277621,12); (90992755,12); (90707961,12); (90423240,12); (90138592,12); (89854016,12);
(89569512,12); (89285080,12); (89000721,12); (88716434,12); (88432220,12); (88148078,12); (87864007,12); (87580010,12);
(87296084,12); (87012230,12); (86728449,12); (86444739,12); (86161102,12); (85877536,12); (85594043,12); (85310621,12);
(85027272,12); (84743994,12); (84460788,12); (84177655,12); (83894593,12); (83611602,12); (83328684,12); (83045837,12);
(82763062,12); (82480359,12); (82197727,12); (81915167,12); (81632678,12); (81350262,12); (81067916,12); (80785642,12);
(80503440,12); (80221309,12); (79939250,12); (79657262,12); (79375345,12); (79093500,12); (78811726,12); (78530024,12);
(78248393,12); (77966833,12); (77685344,12); (77403926,12); (77122580,12); (76841304,12); (76560100,12); (76278967,12);
(75997905,12); (75716914,12); (75435994,12); (75155145,12); (74874367,12); (74593660,12); (74313024,12); (74032459,12);
(73751964,12); (73471541,12); (73191188,12); (72910906,12); (72630694,12); (72350554,12); (72070484,12); (71790485,12);
(71510556,12); (71230698,12); (70950910,12); (70671194,12); (70391547,12); (70111971,12); (69832466,12); (69553031,12);
(69273667,12); (68994372,12); (68715149,12); (68435995,12); (68156912,12); (67877899,12); (67598957,12); (67320085,12);
(67041283,12); (66762551,12); (66483889,12); (66205297,12); (65926776,12); (65648324,12); (65369943,12); (65091632,12);
(64813390,12); (64535219,12); (64257117,12); (63979086,12); (63701124,12); (63423233,12); (63145411,12); (62867658,12);
(62589976,12); (62312364,12); (62034821,12); (61757348,12); (61479944,12); (61202610,12); (60925346,12); (60648152,12);
(60371027,12); (60093971,12); (59816985,12); (59540069,12); (59263222,12); (58986445,12); (58709737,12); (58433098,12);
(58156529,12); (57880029,12); (57603598,12); (57327237,12); (57050945,12); (56774722,12); (56498568,12); (56222484,12);
(55946468,12); (55670522,12); (55394645,12); (55118837,12); (54843098,12); (54567428,12); (54291827,12); (54016295,12);
(53740833,12); (53465439,12); (53190113,12); (52914857,12); (52639670,12); (52364551,12); (52089501,12); (51814520,12);
(51539608,12); (51264765,12); (50989990,12); (50715283,12); (50440646,12); (50166077,12); (49891577,12); (49617145,12);
(49342782,12); (49068487,12); (48794261,12); (48520103,12); (48246014,12); (47971993,12); (47698040,12); (47424156,12);
(47150340,12); (46876593,12); (46602913,12); (46329302,12); (46055760,12); (45782285,12); (45508879,12); (45235540,12);
(44962270,12); (44689068,12); (44415934,12); (44142869,12); (43869871,12); (43596941,12); (43324079,12); (43051285,12);
(42778559,12); (42505901,12); (42233311,12); (41960789,12); (41688334,12); (41415947,12); (41143628,12); (40871377,12);
(40599194,12); (40327078,12); (40055030,12); (39783050,12); (39511137,12); (39239292,12); (38967514,12); (38695804,12);
(38424161,12); (38152586,12); (37881079,12); (37609638,12); (37338266,12); (37066960,12); (36795722,12); (36524552,12);
(36253448,12); (35982412,12); (35711444,12); (35440542,12); (35169708,12); (34898941,12); (34628241,12); (34357608,12);
(34087043,12); (33816544,12); (33546113,12); (33275748,12); (33005451,12); (32735220,12); (32465057,12); (32194960,12);
(31924931,12); (31654968,12); (31385072,12); (31115243,12); (30845481,12); (30575786,12); (30306157,12); (30036596,12);
(29767101,12); (29497672,12); (29228310,12); (28959015,12); (28689787,12); (28420625,12); (28151530,12); (27882501,12);
(27613539,12); (27344643,12); (27075814,12); (26807051,12); (26538355,12); (26269725,12); (26001162,12); (25732664,12);
(25464233,12); (25195869,12); (24927571,12); (24659339,12); (24391173,12); (24123073,12); (23855040,12); (23587073,12);
(23319171,12); (23051336,12); (22783567,12); (22515865,12); (22248228,12); (21980657,12); (21713152,12); (21445713,12);
(21178340,12); (20911033,12); (20643792,12); (20376617,12); (20109507,12); (19842464,12); (19575486,12); (19308574,12);
(19041727,12); (18774947,12); (18508232,12); (18241583,12); (17974999,12); (17708481,12); (17442029,12); (17175642,12);
(16909321,12); (16643065,12); (16376875,12); (16110750,12); (15844690,12); (15578697,12); (15312768,12); (15046905,12);
(14781107,12); (14515375,12); (14249708,12); (13984106,12); (13718569,12); (13453098,12); (13187692,12); (12922351,12);
(12657075,12); (12391864,12); (12126719,12); (11861638,12); (11596623,12); (11331673,12); (11066787,12); (10801967,12);
(10537212,12); (10272521,12); (10007896,12); (9743335,12); (9478840,12); (9214409,12); (8950043,12); (8685741,12);
(8421505,12); (8157333,12); (7893226,12); (7629184,12); (7365207,12); (7101294,12); (6837445,12); (6573662,12);
(6309943,12); (6046288,12); (5782698,12); (5519173,12); (5255712,12); (4992315,12); (4728983,12); (4465716,12);
(4202513,12); (3939374,12); (3676299,12); (3413289,12); (3150343,12); (2887462,12); (2624644,12); (2361891,12);
(2099203,12); (1836578,12); (1574017,12); (1311521,12); (1049089,12); (786721,12); (524417,12); (262177,12)].

(** entries 8192..10239 *)
Definition RECIPROCAL_4 : list (Z * Z) := [
(2147483649,13); (2146959424,13); (2146435328,13); (2145911360,13); (2145387520,13); (2144863808,13); (2144340223,13); (2143816766,13);
(2143293437,13); (2142770235,13); (2142247161,13); (2141724214,13); (2141201395,13); (2140678703,13); (2140156139,13); (2139633702,13);
(2139111393,13); (2138589210,13); (2138067155,13); (2137545227,13); (2137023426,13); (2136501752,13); (2135980206,13); (2135458786,13);
(2134937493,13); (2134416327,13); (2133895288,13); (2133374375,13); (2132853590,13); (2132332931,13); (2131812398,13); (2131291993,13);
(2130771713,13); (2130251561,13); (2129731535,13); (2129211635,13); (2128691862,13); (2128172215,13); (2127652694,13); (2127133299,13);
(2126614031,13); (2126094889,13); (2125575873,13); (2125056983,13); (2124538219,13); (2124019580,13); (2123501068,13); (2122982682,13);
(2122464422,13); (2121946287,13); (2121428278,13); (2120910395,13); (2120392637,13); (2119875005,13); (2119357498,13); (2118840117,13);
(2118322862,13); (2117805732,13); (2117288727,13); (2116771847,13); (2116255093,13); (2115738464,13); (2115221961,13); (2114705582,13);
(2114189328,13); (2113673200,13); (2113157196,13); (2112641318,13); (2112125564,13); (2111609935,13); (2111094432,13); (2110579052,13);
(2110063798,13); (2109548668,13); (2109033663,13); (2108518783,13); (2108004027,13); (2107489395,13); (2106974888,13); (2106460505,13);
(2105946247,13); (2105432113,13); (2104918104,13); (2104404218,13); (2103890457,13); (2103376820,13); (2102863307,13); (2102349918,13);
(2101836653,13); (2101323512,13); (2100810495,13); (2100297602,13); (2099784833,13); (2099272187,13); (2098759665,13); (2098247267,13);
(2097734993,13); (2097222842,13); (2096710814,13); (2096198911,13); (2095687130,13); (2095175473,13); (2094663940,13); (2094152530,13);
(2093641243,13); (2093130079,13); (2092619039,13); (2092108121,13); (2091597327,13); (2091086656,13); (2090576108,13); (2090065683,13);
(2089555381,13); (2089045201,13); (2088535145,13); (2088025211,13); (2087515400,13); (2087005712,13); (2086496147,13); (2085986704,13);
(2085477383,13); (2084968186,13); (2084459110,13); (2083950158,13); (2083441327,13); (2082932619,13); (2082424033,13); (2081915570,13);
(2081407229,13); (2080899009,13); (2080390913,13); (2079882938,13); (2079375085,13); (2078867354,13); (2078359745,13); (2077852258,13);
(2077344893,13); (2076837650,13); (2076330529,13); (2075823529,13); (2075316651,13); (2074809895,13); (2074303260,13); (2073796747,13);
(2073290355,13); (2072784085,13); (2072277937,13); (2071771909,13); (2071266003,13); (2070760219,13); (2070254555,13); (2069749013,13);
(2069243592,13); (2068738292,13); (2068233114,13); (2067728056,13); (2067223119,13); (2066718303,13); (2066213609,13); (2065709035,13);
(2065204582,13); (2064700249,13); (2064196038,13); (2063691947,13); (2063187976,13); (2062684127,13); (2062180398,13); (2061676789,13);
(2061173301,13); (2060669933,13); (2060166686,13); (2059663559,13); (2059160553,13); (2058657666,13); (2058154900,13); (2057652254,13);
(2057149728,13); (2056647323,13); (2056145037,13); (2055642871,13); (2055140826,13); (2054638900,13); (2054137094,13); (2053635408,13);
(2053133842,13); (2052632395,13); (2052131068,13); (2051629861,13); (2051128774,13); (2050627806,13); (2050126957,13); (2049626228,13);
(2049125619,13); (2048625129,13); (2048124758,13); (2047624507,13); (2047124375,13); (2046624362,13); (2046124468,13); (2045624693,13);
(2045125038,13); (2044625502,13); (2044126084,13); (2043626786,13); (2043127607,13); (2042628546,13); (2042129604,13); (2041630781,13);
(2041132077,13); (2040633492,13); (2040135025,13); (2039636677,13); (2039138448,13); (2038640337,13); (2038142345,13); (2037644471,13);
(2037146715,13); (2036649078,13); (2036151559,13); (2035654159,13); (2035156877,13); (2034659713,13); (2034162667,13); (2033665739,13);
(2033168930,13); (2032672238,13); (2032175665,13); (2031679209,13); (2031182871,13); (2030686652,13); (2030190550,13); (2029694566,13);
(2029198699,13); (2028702951,13); (2028207320,13); (2027711806,13); (2027216411,13); (2026721132,13); (2026225972,13); (2025730928,13);
(2025236003,13); (2024741194,13); (2024246503,13); (2023751929,13); (2023257473,13); (2022763133,13); (2022268911,13); (2021774806,13);
(2021280818,13); (2020786947,13); (2020293193,13); (2019799556,13); (2019306036,13); (2018812633,13); (2018319347,13); (2017826177,13);
(2017333124,13); (2016840188,13); (2016347369,13); (2015854666,13); (2015362080,13); (2014869610,13); (2014377257,13); (2013885021,13);
(2013392900,13); (2012900897,13); (2012409009,13); (2011917238,13); (2011425583,13); (2010934044,13); (2010442622,13); (2009951315,13);
(2009460125,13); (2008969051,13); (2008478092,13); (2007987250,13); (2007496524,13); (2007005913,13); (2006515418,13); (2006025040,13);
(2005534777,13); (2005044629,13); (2004554598,13); (2004064682,13); (2003574881,13); (2003085196,13); (2002595627,13); (2002106173,13);
(2001616835,13); (2001127612,13); (2000638504,13); (2000149512,13); (1999660635,13); (1999171873,13); (1998683226,13); (1998194695,13);
(1997706278,13); (1997217977,13); (1996729791,13); (1996241719,13); (1995753763,13); (1995265921,13); (1994778195,13); (1994290583,13);
(1993803086,13); (1993315704,13); (1992828436,13); (1992341284,13); (1991854245,13); (1991367322,13); (1990880513,13); (1990393818,13);
(1989907238,13); (1989420772,13); (1988934421,13); (1988448184,13); (1987962061,13); (1987476053,13); (1986990158,13); (1986504378,13);
(1986018713,13); (1985533161,13); (1985047723,13); (1984562399,13); (1984077190,13); (1983592094,13); (1983107112,13); (1982622244,13);
(1982137490,13); (1981652849,13); (1981168323,13); (1980683910,13); (1980199610,13); (1979715425,13); (1979231352,13); (1978747394,13);
(1978263549,13); (1977779817,13); (1977296199,13); (1976812694,13); (1976329302,13); (1975846024,13); (1975362859,13); (1974879808,13);
(1974396869,13); (1973914044,13); (1973431331,13); (1972948732,13); (1972466246,13); (1971983873,13); (1971501612,13); (1971019465,13);
(1970537430,13); (1970055509,13); (1969573700,13); (1969092003,13); (1968610420,13); (1968128949,13); (1967647591,13); (1967166345,13);
(1966685212,13); (1966204192,13); (1965723284,13); (1965242488,13); (1964761805,13); (1964281234,13); (1963800775,13); (1963320429,13);
(1962840195,13); (1962360073,13); (1961880063,13); (1961400165,13); (1960920380,13); (1960440706,13); (1959961145,13); (1959481695,13);
(1959002357,13); (1958523131,13); (1958044017,13); (1957565015,13); (1957086125,13); (1956607346,13); (1956128679,13); (1955650124,13);
(1955171680,13); (1954693348,13); (1954215127,13); (1953737018,13); (1953259020,13); (1952781134,13); (1952303359,13); (1951825695,13);
(1951348143,13); (1950870702,13); (1950393372,13); (1949916153,13); (1949439046,13); (1948962049,13); (1948485164,13); (1948008389,13);
(1947531726,13); (1947055173,13); (1946578732,13); (1946102401,13); (1945626181,13); (1945150072,13); (1944674074,13); (1944198186,13);
(1943722409,13); (1943246743,13); (1942771187,13); (1942295742,13); (1941820407,13); (1941345183,13); (1940870070,13); (1940395066,13);
(1939920173,13); (1939445391,13); (1938970718,13); (1938496156,13); (1938021704,13); (1937547362,13); (1937073131,13); (1936599009,13);
(1936124998,13); (1935651096,13); (1935177305,13); (1934703624,13); (1934230052,13); (1933756590,13); (1933283238,13); (1932809996,13);
(1932336864,13); (1931863841,13); (1931390928,13); (1930918125,13); (1930445431,13); (1929972847,13); (1929500372,13); (1929028007,13);
(1928555751,13); (1928083605,13); (1927611568,13); (1927139640,13); (1926667822,13); (1926196113,13); (1925724513,13); (1925253022,13);
(1924781641,13); (1924310368,13); (1923839205,13); (1923368150,13); (1922897205,13); (1922426369,13); (1921955641,13); (1921485022,13);
(1921014513,13); (1920544112,13); (1920073819,13); (1919603636,13); (1919133561,13); (1918663595,13); (1918193737,13); (1917723988,13);
(1917254348,13); (1916784816,13); (1916315393,13); (1915846078,13); (1915376871,13); (1914907773,13); (1914438783,13); (1913969901,13);
(1913501127,13); (1913032462,13); (1912563905,13); (1912095456,13); (1911627115,13); (1911158882,13); (1910690757,13); (1910222740,13);
(1909754831,13); (1909287030,13); (1908819337,13); (1908351752,13); (1907884274,13); (1907416904,13); (1906949642,13); (1906482488,13);
(1906015441,13); (1905548502,13); (1905081670,13); (1904614946,13); (1904148330,13); (1903681820,13); (1903215419,13); (1902749124,13);
(1902282937,13); (1901816858,13); (1901350885,13); (1900885020,13); (1900419262,13); (1899953611,13); (1899488067,13); (1899022631,13);
(1898557301,13); (1898092078,13); (1897626963,13); (1897161954,13); (1896697052,13); (1896232257,13); (1895767569,13); (1895302988,13);
(1894838513,13); (1894374146,13); (1893909884,13); (1893445730,13); (1892981682,13); (1892517741,13); (1892053906,13); (1891590177,13);
(1891126556,13); (1890663040,13); (1890199631,13); (1889736328,13); (1889273132,13); (1888810042,13); (1888347058,13); (1887884180,13);
(1887421409,13); (1886958743,13); (1886496184,13); (1886033731,13); (1885571383,13); (1885109142,13); (1884647007,13); (1884184977,13);
(1883723054,13); (1883261236,13); (1882799524,13); (1882337918,13); (1881876418,13); (1881415023,13); (1880953734,13); (1880492550,13);
(1880031473,13); (1879570500,13); (1879109633,13); (1878648872,13); (1878188216,13); (1877727666,13); (1877267221,13); (1876806881,13);
(1876346646,13); (1875886517,13); (1875426493,13); (1874966574,13); (1874506760,13); (1874047052,13); (1873587448,13); (1873127950,13);
(1872668556,13); (1872209268,13); (1871750084,13); (1871291006,13); (1870832032,13); (1870373163,13); (1869914399,13); (1869455739,13);
(1868997185,13); (1868538735,13); (1868080389,13); (1867622148,13); (1867164012,13); (1866705980,13); (1866248053,13); (1865790231,13);
(1865332512,13); (1864874898,13); (1864417389,13); (1863959984,13); (1863502683,13); (1863045486,13); (1862588394,13); (1862131405,13);
(1861674521,13); (1861217741,13); (1860761065,13); (1860304493,13); (1859848025,13); (1859391662,13); (1858935402,13); (1858479245,13);
(1858023193,13); (1857567245,13); (1857111400,13); (1856655659,13); (1856200022,13); (1855744489,13); (1855289059,13); (1854833733,13);
(1854378510,13); (1853923391,13); (1853468375,13); (1853013463,13); (1852558655,13); (1852103949,13); (1851649347,13); (1851194849,13);
(1850740454,13); (1850286161,13); (1849831973,13); (1849377887,13); (1848923905,13); (1848470025,13); (1848016249,13); (1847562576,13);
(1847109006,13); (1846655538,13); (1846202174,13); (1845748913,13); (1845295754,13); (1844842699,13); (1844389746,13); (1843936896,13);
(1843484148,13); (1843031504,13); (1842578962,13); (1842126522,13); (1841674186,13); (1841221952,13); (1840769820,13); (1840317791,13);
(1839865864,13); (1839414040,13); (1838962318,13); (1838510698,13); (1838059181,13); (1837607766,13); (1837156453,13); (1836705243,13);
(1836254134,13); (1835803128,13); (1835352224,13); (1834901422,13); (1834450722,13); (1834000124,13); (1833549628,13); (1833099234,13);
(1832648942,13); (1832198751,13); (1831748663,13); (1831298676,13); (1830848791,13); (1830399008,13); (1829949327,13); (1829499747,13);
(1829050269,13); (1828600892,13); (1828151617,13); (1827702443,13); (1827253371,13); (1826804400,13); (1826355531,13); (1825906763,13);
(1825458097,13); (1825009532,13); (1824561068,13); (1824112705,13); (1823664444,13); (1823216284,13); (1822768224,13); (1822320266,13);
(1821872409,13); (1821424654,13); (1820976999,13); (1820529445,13); (1820081992,13); (1819634640,13); (1819187388,13); (1818740238,13);
(1818293188,13); (1817846240,13); (1817399392,13); (1816952644,13); (1816505997,13); (1816059451,13); (1815613006,13); (1815166661,13);
(1814720417,13); (1814274273,13); (1813828229,13); (1813382286,13); (1812936444,13); (1812490701,13); (1812045059,13); (1811599518,13);
(1811154076,13); (1810708735,13); (1810263494,13); (1809818353,13); (1809373313,13); (1808928372,13); (1808483531,13); (1808038791,13);
(1807594150,13); (1807149610,13); (1806705169,13); (1806260828,13); (1805816587,13); (1805372446,13); (1804928405,13); (1804484463,13);
(1804040621,13); (1803596879,13); (1803153236,13); (1802709694,13); (1802266250,13); (1801822906,13); (1801379662,13); (1800936517,13);
(1800493472,13); (1800050526,13); (1799607679,13); (1799164932,13); (1798722284,13); (1798279736,13); (1797837286,13); (1797394936,13);
(1796952685,13); (1796510534,13); (1796068481,13); (1795626527,13); (1795184673,13); (1794742917,13); (1794301261,13); (1793859703,13);
(1793418244,13); (1792976884,13); (1792535623,13); (1792094461,13); (1791653398,13); (1791212433,13); (1790771567,13); (1790330800,13);
(1789890131,13); (1789449561,13); (1789009090,13); (1788568717,13); (1788128443,13); (1787688267,13); (1787248190,13); (1786808211,13);
(1786368330,13); (1785928548,13); (1785488864,13); (1785049278,13); (1784609791,13); (1784170402,13); (1783731111,13); (1783291918,13);
(1782852824,13); (1782413827,13); (1781974928,13); (1781536128,13); (1781097425,13); (1780658821,13); (1780220314,13); (1779781905,13);
(1779343595,13); (1778905381,13); (1778467266,13); (1778029249,13); (1777591329,13); (1777153507,13); (1776715782,13); (1776278156,13);
(1775840626,13); (1775403195,13); (1774965861,13); (1774528624,13); (1774091485,13); (1773654443,13); (1773217499,13); (1772780652,13);
(1772343903,13); (1771907250,13); (1771470695,13); (1771034237,13); (1770597877,13); (1770161613,13); (1769725447,13); (1769289378,13);
(1768853406,13); (1768417531,13); (1767981753,13); (1767546072,13); (1767110488,13); (1766675001,13); (1766239610,13); (1765804317,13);
(1765369120,13); (1764934021,13); (1764499017,13); (1764064111,13); (1763629301,13); (1763194588,13); (1762759972,13); (1762325452,13);
(1761891029,13); (1761456702,13); (1761022472,13); (1760588338,13); (1760154301,13); (1759720360,13); (1759286516,13); (1758852767,13);
(1758419115,13); (1757985560,13); (1757552100,13); (1757118737,13); (1756685470,13); (1756252299,13); (1755819225,13); (1755386246,13);
(1754953363,13); (1754520577,13); (1754087886,13); (1753655291,13); (1753222793,13); (1752790390,13); (1752358083,13); (1751925871,13);
(1751493756,13); (1751061736,13); (1750629812,13); (1750197984,13); (1749766252,13); (1749334615,13); (1748903073,13); (1748471628,13);
(1748040277,13); (1747609023,13); (1747177863,13); (1746746800,13); (1746315831,13); (1745884958,13); (1745454180,13); (1745023498,13);
(1744592911,13); (1744162419,13); (1743732023,13); (1743301721,13); (1742871515,13); (1742441404,13); (1742011388,13); (1741581467,13);
(1741151641,13); (1740721910,13); (1740292274,13); (1739862733,13); (1739433287,13); (1739003935,13); (1738574679,13); (1738145517,13);
(1737716451,13); (1737287479,13); (1736858601,13); (1736429819,13); (1736001131,13); (1735572537,13); (1735144038,13); (1734715634,13);
(1734287324,13); (1733859109,13); (1733430988,13); (1733002962,13); (1732575030,13); (1732147193,13); (1731719449,13); (1731291801,13);
(1730864246,13); (1730436786,13); (1730009419,13); (1729582147,13); (1729154970,13); (1728727886,13); (1728300896,13); (1727874001,13);
(1727447199,13); (1727020492,13); (1726593878,13); (1726167359,13); (1725740933,13); (1725314601,13); (1724888363,13); (1724462219,13);
(1724036169,13); (1723610212,13); (1723184349,13); (1722758580,13); (1722332904,13); (1721907322,13); (1721481834,13); (1721056439,13);
(1720631138,13); (1720205930,13); (1719780816,13); (1719355795,13); (1718930868,13); (1718506034,13); (1718081293,13); (1717656646,13);
(1717232092,13); (1716807631,13); (1716383263,13); (1715958989,13); (1715534808,13); (1715110719,13); (1714686724,13); (1714262823,13);
(1713839014,13); (1713415298,13); (1712991675,13); (1712568145,13); (1712144708,13); (1711721364,13); (1711298113,13); (1710874954,13);
(1710451889,13); (1710028916,13); (1709606036,13); (1709183248,13); (1708760553,13); (1708337951,13); (1707915442,13); (1707493025,13);
(1707070701,13); (1706648469,13); (1706226329,13); (1705804283,13); (1705382328,13); (1704960466,13); (1704538696,13); (1704117019,13);
(1703695434,13); (1703273941,13); (1702852541,13); (1702431233,13); (1702010016,13); (1701588893,13); (1701167861,13); (1700746921,13);
(1700326074,13); (1699905318,13); (1699484654,13); (1699064083,13); (1698643603,13); (1698223215,13); (1697802920,13); (1697382716,13);
(1696962603,13); (1696542583,13); (1696122655,13); (1695702818,13); (1695283073,13); (1694863419,13); (1694443857,13); (1694024387,13);
(1693605008,13); (1693185721,13); (1692766526,13); (1692347422,13); (1691928409,13); (1691509488,13); (1691090659,13); (1690671920,13);
(1690253273,13); (1689834718,13); (1689416253,13); (1688997880,13); (1688579598,13); (1688161407,13); (1687743308,13); (1687325300,13);
(1686907382,13); (1686489556,13); (1686071821,13); (1685654177,13); (1685236624,13); (1684819161,13); (1684401790,13); (1683984510,13);
(1683567320,13); (1683150222,13); (1682733214,13); (1682316297,13); (1681899471,13); (1681482735,13); (1681066090,13); (1680649536,13);
(1680233072,13); (1679816699,13); (1679400417,13); (1678984225,13); (1678568124,13); (1678152113,13); (1677736193,13); (1677320363,13);
(1676904623,13); (1676488974,13); (1676073415,13); (1675657946,13); (1675242568,13); (1674827280,13); (1674412082,13); (1673996975,13);
(1673581957,13); (1673167030,13); (1672752193,13); (1672337446,13); (1671922789,13); (1671508221,13); (1671093744,13); (1670679357,13);
(1670265060,13); (1669850853,13); (1669436735,13); (1669022708,13); (1668608770,13); (1668194922,13); (1667781164,13); (1667367495,13);
(1666953916,13); (1666540427,13); (1666127028,13); (1665713718,13); (1665300497,13); (1664887367,13); (1664474325,13); (1664061373,13);
(1663648511,13); (1663235738,13); (1662823055,13); (1662410461,13); (1661997956,13); (1661585540,13); (1661173214,13); (1660760977,13);
(1660348830,13); (1659936771,13); (1659524802,13); (1659112922,13); (1658701131,13); (1658289429,13); (1657877816,13); (1657466292,13);
(1657054857,13); (1656643511,13); (1656232254,13); (1655821086,13); (1655410007,13); (1654999016,13); (1654588115,13); (1654177302,13);
(1653766578,13); (1653355943,13); (1652945396,13); (1652534939,13); (1652124569,13); (1651714289,13); (1651304097,13); (1650893994,13);
(1650483979,13); (1650074052,13); (1649664214,13); (1649254465,13); (1648844804,13); (1648435231,13); (1648025747,13); (1647616351,13);
(1647207044,13); (1646797824,13); (1646388693,13); (1645979650,13); (1645570696,13); (1645161829,13); (1644753051,13); (1644344361,13);
(1643935759,13); (1643527245,13); (1643118818,13); (1642710480,13); (1642302230,13); (1641894068,13); (1641485994,13); (1641078007,13);
(1640670109,13); (1640262298,13); (1639854575,13); (1639446940,13); (1639039393,13); (1638631933,13); (1638224561,13); (1637817277,13);
(1637410080,13); (1637002971,13); (1636595949,13); (1636189015,13); (1635782169,13); (1635375409,13); (1634968738,13); (1634562154,13);
(1634155657,13); (1633749248,13); (1633342926,13); (1632936691,13); (1632530543,13); (1632124483,13); (1631718510,13); (1631312625,13);
(1630906826,13); (1630501115,13); (1630095490,13); (1629689953,13); (1629284503,13); (1628879140,13); (1628473864,13); (1628068675,13);
(1627663572,13); (1627258557,13); (1626853629,13); (1626448787,13); (1626044033,13); (1625639365,13); (1625234784,13); (1624830289,13);
(1624425882,13); (1624021561,13); (1623617327,13); (1623213179,13); (1622809118,13); (1622405144,13); (1622001256,13); (1621597455,13);
(1621193740,13); (1620790112,13); (1620386570,13); (1619983114,13); (1619579745,13); (1619176463,13); (1618773266,13); (1618370156,13);
(1617967133,13); (1617564195,13); (1617161344,13); (1616758579,13); (1616355900,13); (1615953307,13); (1615550801,13); (1615148380,13);
(1614746045,13); (1614343797,13); (1613941635,13); (1613539558,13); (1613137568,13); (1612735663,13); (1612333844,13); (1611932112,13);
(1611530465,13); (1611128903,13); (1610727428,13); (1610326038,13); (1609924734,13); (1609523516,13); (1609122384,13); (1608721337,13);
(1608320376,13); (1607919500,13); (1607518710,13); (1607118005,13); (1606717386,13); (1606316853,13); (1605916405,13); (1605516042,13);
(1605115765,13); (1604715573,13); (1604315466,13); (1603915445,13); (1603515509,13); (1603115658,13); (1602715893,13); (1602316213,13);
(1601916618,13); (1601517108,13); (1601117683,13); (1600718343,13); (1600319089,13); (1599919919,13); (1599520835,13); (1599121835,13);
(1598722921,13); (1598324091,13); (1597925346,13); (1597526687,13); (1597128112,13); (1596729622,13); (1596331216,13); (1595932896,13);
(1595534660,13); (1595136509,13); (1594738442,13); (1594340461,13); (1593942564,13); (1593544751,13); (1593147023,13); (1592749380,13);
(1592351821,13); (1591954347,13); (1591556957,13); (1591159652,13); (1590762431,13); (1590365294,13); (1589968242,13); (1589571274,13);
(1589174391,13); (1588777592,13); (1588380877,13); (1587984246,13); (1587587700,13); (1587191237,13); (1586794859,13); (1586398565,13);
(1586002355,13); (1585606229,13); (1585210188,13); (1584814230,13); (1584418356,13); (1584022566,13); (1583626860,13); (1583231238,13);
(1582835700,13); (1582440246,13); (1582044876,13); (1581649589,13); (1581254387,13); (1580859267,13); (1580464232,13); (1580069281,13);
(1579674413,13); (1579279629,13); (1578884928,13); (1578490311,13); (1578095777,13); (1577701327,13); (1577306961,13); (1576912678,13);
(1576518479,13); (1576124363,13); (1575730330,13); (1575336381,13); (1574942515,13); (1574548733,13); (1574155033,13); (1573761417,13);
(1573367885,13); (1572974435,13); (1572581069,13); (1572187786,13); (1571794586,13); (1571401469,13); (1571008435,13); (1570615485,13);
(1570222617,13); (1569829833,13); (1569437131,13); (1569044512,13); (1568651977,13); (1568259524,13); (1567867154,13); (1567474867,13);
(1567082663,13); (1566690541,13); (1566298502,13); (1565906547,13); (1565514673,13); (1565122883,13); (1564731175,13); (1564339550,13);
(1563948007,13); (1563556548,13); (1563165170,13); (1562773875,13); (1562382663,13); (1561991533,13); (1561600486,13); (1561209521,13);
(1560818638,13); (1560427838,13); (1560037121,13); (1559646485,13); (1559255932,13); (1558865461,13); (1558475073,13); (1558084766,13);
(1557694542,13); (1557304400,13); (1556914340,13); (1556524363,13); (1556134467,13); (1555744654,13); (1555354922,13); (1554965273,13);
(1554575705,13); (1554186220,13); (1553796816,13); (1553407495,13); (1553018255,13); (1552629097,13); (1552240021,13); (1551851027,13);
(1551462115,13); (1551073284,13); (1550684535,13); (1550295868,13); (1549907282,13); (1549518779,13); (1549130356,13); (1548742016,13);
(1548353757,13); (1547965579,13); (1547577483,13); (1547189469,13); (1546801536,13); (1546413685,13); (1546025915,13); (1545638226,13);
(1545250619,13); (1544863093,13); (1544475648,13); (1544088285,13); (1543701003,13); (1543313802,13); (1542926683,13); (1542539644,13);
(1542152687,13); (1541765811,13); (1541379016,13); (1540992303,13); (1540605670,13); (1540219118,13); (1539832648,13); (1539446258,13);
(1539059949,13); (1538673722,13); (1538287575,13); (1537901509,13); (1537515524,13); (1537129620,13); (1536743796,13); (1536358054,13);
(1535972392,13); (1535586811,13); (1535201311,13); (1534815891,13); (1534430552,13); (1534045293,13); (1533660116,13); (1533275019,13);
(1532890002,13); (1532505066,13); (1532120210,13); (1531735435,13); (1531350741,13); (1530966127,13); (1530581593,13); (1530197139,13);
(1529812766,13); (1529428474,13); (1529044261,13); (1528660129,13); (1528276078,13); (1527892106,13); (1527508215,13); (1527124404,13);
(1526740673,13); (1526357022,13); (1525973451,13); (1525589960,13); (1525206550,13); (1524823219,13); (1524439969,13); (1524056798,13);
(1523673707,13); (1523290697,13); (1522907766,13); (1522524915,13); (1522142144,13); (1521759453,13); (1521376841,13); (1520994310,13);
(1520611858,13); (1520229486,13); (1519847194,13); (1519464981,13); (1519082848,13); (1518700794,13); (1518318821,13); (1517936926,13);
(1517555112,13); (1517173377,13); (1516791721,13); (1516410145,13); (1516028648,13); (1515647231,13); (1515265893,13); (1514884635,13);
(1514503456,13); (1514122356,13); (1513741336,13); (1513360395,13); (1512979533,13); (1512598750,13); (1512218047,13); (1511837423,13);
(1511456878,13); (1511076412,13); (1510696025,13); (1510315717,13); (1509935489,13); (1509555339,13); (1509175268,13); (1508795277,13);
(1508415364,13); (1508035531,13); (1507655776,13); (1507276100,13); (1506896503,13); (1506516985,13); (1506137546,13); (1505758185,13);
(1505378903,13); (1504999700,13); (1504620576,13); (1504241530,13); (1503862563,13); (1503483675,13); (1503104866,13); (1502726135,13);
(1502347482,13); (1501968908,13); (1501590413,13); (1501211996,13); (1500833657,13); (1500455397,13); (1500077216,13); (1499699113,13);
(1499321088,13); (1498943142,13); (1498565274,13); (1498187484,13); (1497809772,13); (1497432139,13); (1497054584,13); (1496677107,13);
(1496299709,13); (1495922388,13); (1495545146,13); (1495167982,13); (1494790896,13); (1494413888,13); (1494036958,13); (1493660106,13);
(1493283332,13); (1492906636,13); (1492530018,13); (1492153478,13); (1491777015,13); (1491400631,13); (1491024324,13); (1490648096,13);
(1490271945,13); (1489895872,13); (1489519876,13); (1489143959,13); (1488768119,13); (1488392356,13); (1488016672,13); (1487641065,13);
(1487265535,13); (1486890083,13); (1486514709,13); (1486139412,13); (1485764193,13); (1485389051,13); (1485013987,13); (1484639000,13);
(1484264091,13); (1483889259,13); (1483514504,13); (1483139827,13); (1482765227,13); (1482390704,13); (1482016259,13); (1481641890,13);
(1481267599,13); (1480893385,13); (1480519249,13); (1480145189,13); (1479771207,13); (1479397302,13); (1479023474,13); (1478649722,13);
(1478276048,13); (1477902451,13); (1477528931,13); (1477155488,13); (1476782122,13); (1476408833,13); (1476035620,13); (1475662485,13);
(1475289426,13); (1474916444,13); (1474543539,13); (1474170711,13); (1473797959,13); (1473425284,13); (1473052686,13); (1472680165,13);
(1472307720,13); (1471935351,13); (1471563060,13); (1471190845,13); (1470818706,13); (1470446644,13); (1470074659,13); (1469702750,13);
(1469330918,13); (1468959162,13); (1468587482,13); (1468215879,13); (1467844352,13); (1467472901,13); (1467101527,13); (1466730229,13);
(1466359007,13); (1465987862,13); (1465616793,13); (1465245800,13); (1464874883,13); (1464504043,13); (1464133278,13); (1463762590,13);
(1463391977,13); (1463021441,13); (1462650981,13); (1462280597,13); (1461910289,13); (1461540056,13); (1461169900,13); (1460799820,13);
(1460429815,13); (1460059887,13); (1459690034,13); (1459320257,13); (1458950556,13); (1458580931,13); (1458211381,13); (1457841907,13);
(1457472509,13); (1457103187,13); (1456733940,13); (1456364769,13); (1455995673,13); (1455626653,13); (1455257709,13); (1454888840,13);
(1454520047,13); (1454151329,13); (1453782687,13); (1453414120,13); (1453045629,13); (1452677213,13); (1452308872,13); (1451940607,13);
(1451572417,13); (1451204303,13); (1450836263,13); (1450468299,13); (1450100411,13); (1449732597,13); (1449364859,13); (1448997196,13);
(1448629608,13); (1448262095,13); (1447894657,13); (1447527294,13); (1447160007,13); (1446792794,13); (1446425657,13); (1446058594,13);
(1445691607,13); (1445324694,13); (1444957856,13); (1444591094,13); (1444224406,13); (1443857793,13); (1443491254,13); (1443124791,13);
(1442758402,13); (1442392089,13); (1442025849,13); (1441659685,13); (1441293595,13); (1440927580,13); (1440561640,13); (1440195774,13);
(1439829983,13); (1439464267,13); (1439098625,13); (1438733057,13); (1438367564,13); (1438002146,13); (1437636802,13); (1437271532,13);
(1436906337,13); (1436541216,13); (1436176170,13); (1435811198,13); (1435446300,13); (1435081477,13); (1434716728,13); (1434352053,13);
(1433987453,13); (1433622926,13); (1433258474,13); (1432894096,13); (1432529793,13); (1432165563,13); (1431801407,13); (1431437326,13);
(1431073318,13); (1430709385,13); (1430345526,13); (1429981740,13); (1429618029,13); (1429254391,13); (1428890828,13); (1428527338,13);
(1428163923,13); (1427800581,13); (1427437313,13); (1427074118,13); (1426710998,13); (1426347951,13); (1425984978,13); (1425622079,13);
(1425259253,13); (1424896502,13); (1424533823,13); (1424171219,13); (1423808688,13); (1423446231,13); (1423083847,13); (1422721537,13);
(1422359300,13); (1421997137,13); (1421635047,13); (1421273031,13); (1420911088,13); (1420549218,13); (1420187422,13); (1419825699,13);
(1419464050,13); (1419102474,13); (1418740971,13); (1418379542,13); (1418018186,13); (1417656903,13); (1417295693,13); (1416934556,13);
(1416573493,13); (1416212502,13); (1415851585,13); (1415490741,13); (1415129970,13); (1414769272,13); (1414408647,13); (1414048095,13);
(1413687617,13); (1413327211,13); (1412966878,13); (1412606617,13); (1412246430,13); (1411886316,13); (1411526274,13); (1411166306,13);
(1410806410,13); (1410446587,13); (1410086837,13); (1409727159,13); (1409367554,13); (1409008022,13); (1408648563,13); (1408289176,13);
(1407929862,13); (1407570620,13); (1407211451,13); (1406852355,13); (1406493331,13); (1406134380,13); (1405775501,13); (1405416695,13);
(1405057961,13); (1404699299,13); (1404340710,13); (1403982194,13); (1403623749,13); (1403265378,13); (1402907078,13); (1402548851,13);
(1402190696,13); (1401832613,13); (1401474602,13); (1401116664,13); (1400758798,13); (1400401004,13); (1400043282,13); (1399685633,13);
(1399328055,13); (1398970550,13); (1398613116,13); (1398255755,13); (1397898465,13); (1397541248,13); (1397184103,13); (1396827029,13);
(1396470028,13); (1396113098,13); (1395756241,13); (1395399455,13); (1395042741,13); (1394686099,13); (1394329528,13); (1393973030,13);
(1393616603,13); (1393260248,13); (1392903965,13); (1392547753,13); (1392191613,13); (1391835545,13); (1391479548,13); (1391123623,13);
(1390767769,13); (1390411987,13); (1390056277,13); (1389700638,13); (1389345071,13); (1388989575,13); (1388634150,13); (1388278797,13);
(1387923516,13); (1387568306,13); (1387213167,13); (1386858099,13); (1386503103,13); (1386148178,13); (1385793325,13); (1385438542,13);
(1385083831,13); (1384729191,13); (1384374623,13); (1384020125,13); (1383665699,13); (1383311344,13); (1382957060,13); (1382602847,13);
(1382248705,13); (1381894634,13); (1381540634,13); (1381186705,13); (1380832848,13); (1380479061,13); (1380125345,13); (1379771700,13);
(1379418126,13); (1379064622,13); (1378711190,13); (1378357828,13); (1378004538,13); (1377651318,13); (1377298169,13); (1376945090,13);
(1376592083,13); (1376239146,13); (1375886279,13); (1375533484,13); (1375180759,13); (1374828104,13); (1374475521,13); (1374123007,13);
(1373770565,13); (1373418193,13); (1373065891,13); (1372713660,13); (1372361499,13); (1372009409,13); (1371657390,13); (1371305440,13);
(1370953561,13); (1370601753,13); (1370250015,13); (1369898347,13); (1369546749,13); (1369195222,13); (1368843765,13); (1368492378,13);
(1368141062,13); (1367789815,13); (1367438639,13); (1367087533,13); (1366736497,13); (1366385531,13); (1366034636,13); (1365683810,13);
(1365333055,13); (1364982369,13); (1364631754,13); (1364281208,13); (1363930733,13); (1363580327,13); (1363229991,13); (1362879726,13);
(1362529530,13); (1362179404,13); (1361829348,13); (1361479361,13); (1361129445,13); (1360779598,13); (1360429821,13); (1360080114,13);
(1359730476,13); (1359380908,13); (1359031410,13); (1358681982,13); (1358332623,13); (1357983334,13); (1357634114,13); (1357284964,13);
(1356935883,13); (1356586872,13); (1356237931,13); (1355889059,13); (1355540256,13); (1355191523,13); (1354842859,13); (1354494265,13);
(1354145740,13); (1353797285,13); (1353448899,13); (1353100582,13); (1352752334,13); (1352404156,13); (1352056047,13); (1351708007,13);
(1351360037,13); (1351012135,13); (1350664303,13); (1350316540,13); (1349968846,13); (1349621222,13); (1349273666,13); (1348926179,13);
(1348578762,13); (1348231413,13); (1347884134,13); (1347536924,13); (1347189782,13); (1346842710,13); (1346495706,13); (1346148771,13);
(1345801905,13); (1345455108,13); (1345108380,13); (1344761721,13); (1344415131,13); (1344068609,13); (1343722156,13); (1343375772,13);
(1343029457,13); (1342683210,13); (1342337032,13); (1341990922,13); (1341644882,13); (1341298910,13); (1340953006,13); (1340607171,13);
(1340261405,13); (1339915707,13); (1339570078,13); (1339224517,13); (1338879025,13); (1338533601,13); (1338188246,13); (1337842959,13);
(1337497740,13); (1337152590,13); (1336807508,13); (1336462495,13); (1336117549,13); (1335772673,13); (1335427864,13); (1335083124,13);
(1334738452,13); (1334393848,13); (1334049312,13); (1333704845,13); (1333360445,13); (1333016114,13); (1332671851,13); (1332327656,13);
(1331983529,13); (1331639470,13); (1331295479,13); (1330951557,13); (1330607702,13); (1330263915,13); (1329920196,13); (1329576545,13);
(1329232962,13); (1328889447,13); (1328546000,13); (1328202620,13); (1327859309,13); (1327516065,13); (1327172889,13); (1326829781,13);
(1326486740,13); (1326143768,13); (1325800863,13); (1325458025,13); (1325115256,13); (1324772554,13); (1324429920,13); (1324087353,13);
(1323744854,13); (1323402422,13); (1323060058,13); (1322717762,13); (1322375533,13); (1322033371,13); (1321691277,13); (1321349251,13);
(1321007292,13); (1320665400,13); (1320323576,13); (1319981819,13); (1319640129,13); (1319298507,13); (1318956952,13); (1318615465,13);
(1318274044,13); (1317932691,13); (1317591406,13); (1317250187,13); (1316909036,13); (1316567951,13); (1316226934,13); (1315885984,13);
(1315545101,13); (1315204286,13); (1314863537,13); (1314522855,13); (1314182241,13); (1313841693,13); (1313501213,13); (1313160799,13);
(1312820453,13); (1312480173,13); (1312139960,13); (1311799814,13); (1311459735,13); (1311119723,13); (1310779778,13); (1310439899,13);
(1310100088,13); (1309760343,13); (1309420665,13); (1309081053,13); (1308741509,13); (1308402031,13); (1308062619,13); (1307723275,13);
(1307383997,13); (1307044785,13); (1306705641,13); (1306366562,13); (1306027551,13); (1305688606,13); (1305349727,13); (1305010915,13);
(1304672170,13); (1304333491,13); (1303994878,13); (1303656332,13); (1303317852,13); (1302979439,13); (1302641092,13); (1302302811,13);
(1301964597,13); (1301626448,13); (1301288367,13); (1300950351,13); (1300612402,13); (1300274519,13); (1299936702,13); (1299598952,13);
(1299261267,13); (1298923649,13); (1298586097,13); (1298248611,13); (1297911191,13); (1297573837,13); (1297236549,13); (1296899327,13);
(1296562172,13); (1296225082,13); (1295888058,13); (1295551100,13); (1295214209,13); (1294877383,13); (1294540623,13); (1294203928,13);
(1293867300,13); (1293530738,13); (1293194241,13); (1292857810,13); (1292521445,13); (1292185146,13); (1291848913,13); (1291512745,13);
(1291176643,13); (1290840606,13); (1290504636,13); (1290168731,13); (1289832891,13); (1289497117,13); (1289161409,13); (1288825766,13)].

(** entries 10240..12287 *)
Definition RECIPROCAL_5 : list (Z * Z) := [
(1288490189,13); (1288154678,13); (1287819232,13); (1287483851,13); (1287148536,13); (1286813287,13); (1286478102,13); (1286142984,13);
(1285807930,13); (1285472942,13); (1285138020,13); (1284803162,13); (1284468371,13); (1284133644,13); (1283798983,13); (1283464387,13);
(1283129856,13); (1282795390,13); (1282460990,13); (1282126655,13); (1281792385,13); (1281458180,13); (1281124040,13); (1280789965,13);
(1280455956,13); (1280122011,13); (1279788132,13); (1279454318,13); (1279120568,13); (1278786884,13); (1278453265,13); (1278119710,13);
(1277786221,13); (1277452796,13); (1277119437,13); (1276786142,13); (1276452912,13); (1276119747,13); (1275786647,13); (1275453612,13);
(1275120641,13); (1274787736,13); (1274454894,13); (1274122118,13); (1273789407,13); (1273456760,13); (1273124178,13); (1272791660,13);
(1272459207,13); (1272126819,13); (1271794495,13); (1271462236,13); (1271130042,13); (1270797912,13); (1270465846,13); (1270133845,13);
(1269801909,13); (1269470037,13); (1269138229,13); (1268806486,13); (1268474808,13); (1268143193,13); (1267811644,13); (1267480158,13);
(1267148737,13); (1266817380,13); (1266486087,13); (1266154859,13); (1265823695,13); (1265492595,13); (1265161560,13); (1264830589,13);
(1264499682,13); (1264168839,13); (1263838060,13); (1263507345,13); (1263176695,13); (1262846108,13); (1262515586,13); (1262185127,13);
(1261854733,13); (1261524403,13); (1261194137,13); (1260863934,13); (1260533796,13); (1260203722,13); (1259873711,13); (1259543765,13);
(1259213882,13); (1258884064,13); (1258554309,13); (1258224618,13); (1257894991,13); (1257565427,13); (1257235928,13); (1256906492,13);
(1256577120,13); (1256247811,13); (1255918567,13); (1255589386,13); (1255260268,13); (1254931215,13); (1254602225,13); (1254273298,13);
(1253944435,13); (1253615636,13); (1253286900,13); (1252958228,13); (1252629620,13); (1252301075,13); (1251972593,13); (1251644175,13);
(1251315820,13); (1250987529,13); (1250659301,13); (1250331137,13); (1250003035,13); (1249674998,13); (1249347023,13); (1249019112,13);
(1248691265,13); (1248363480,13); (1248035759,13); (1247708101,13); (1247380506,13); (1247052975,13); (1246725506,13); (1246398101,13);
(1246070759,13); (1245743480,13); (1245416265,13); (1245089112,13); (1244762022,13); (1244434996,13); (1244108033,13); (1243781132,13);
(1243454295,13); (1243127520,13); (1242800809,13); (1242474160,13); (1242147575,13); (1241821052,13); (1241494593,13); (1241168196,13);
(1240841862,13); (1240515591,13); (1240189382,13); (1239863237,13); (1239537154,13); (1239211134,13); (1238885177,13); (1238559283,13);
(1238233451,13); (1237907682,13); (1237581976,13); (1237256332,13); (1236930751,13); (1236605233,13); (1236279777,13); (1235954384,13);
(1235629053,13); (1235303785,13); (1234978580,13); (1234653437,13); (1234328356,13); (1234003338,13); (1233678383,13); (1233353490,13);
(1233028659,13); (1232703891,13); (1232379185,13); (1232054542,13); (1231729961,13); (1231405442,13); (1231080986,13); (1230756591,13);
(1230432260,13); (1230107990,13); (1229783783,13); (1229459638,13); (1229135555,13); (1228811534,13); (1228487576,13); (1228163679,13);
(1227839845,13); (1227516073,13); (1227192363,13); (1226868715,13); (1226545130,13); (1226221606,13); (1225898144,13); (1225574745,13);
(1225251407,13); (1224928131,13); (1224604918,13); (1224281766,13); (1223958676,13); (1223635648,13); (1223312682,13); (1222989778,13);
(1222666936,13); (1222344155,13); (1222021437,13); (1221698780,13); (1221376185,13); (1221053652,13); (1220731180,13); (1220408770,13);
(1220086422,13); (1219764136,13); (1219441911,13); (1219119748,13); (1218797647,13); (1218475607,13); (1218153629,13); (1217831713,13);
(1217509858,13); (1217188064,13); (1216866332,13); (1216544662,13); (1216223053,13); (1215901506,13); (1215580020,13); (1215258596,13);
(1214937233,13); (1214615931,13); (1214294691,13); (1213973512,13); (1213652395,13); (1213331339,13); (1213010344,13); (1212689410,13);
(1212368538,13); (1212047727,13); (1211726978,13); (1211406289,13); (1211085662,13); (1210765096,13); (1210444592,13); (1210124148,13);
(1209803766,13); (1209483444,13); (1209163184,13); (1208842985,13); (1208522847,13); (1208202770,13); (1207882754,13); (1207562799,13);
(1207242906,13); (1206923073,13); (1206603301,13); (1206283590,13); (1205963940,13); (1205644351,13); (1205324823,13); (1205005356,13);
(1204685949,13); (1204366604,13); (1204047319,13); (1203728095,13); (1203408932,13); (1203089830,13); (1202770789,13); (1202451808,13);
(1202132888,13); (1201814029,13); (1201495230,13); (1201176492,13); (1200857815,13); (1200539199,13); (1200220643,13); (1199902147,13);
(1199583713,13); (1199265338,13); (1198947025,13); (1198628772,13); (1198310579,13); (1197992447,13); (1197674376,13); (1197356365,13);
(1197038414,13); (1196720524,13); (1196402694,13); (1196084925,13); (1195767216,13); (1195449568,13); (1195131979,13); (1194814452,13);
(1194496984,13); (1194179577,13); (1193862230,13); (1193544943,13); (1193227717,13); (1192910551,13); (1192593445,13); (1192276399,13);
(1191959413,13); (1191642488,13); (1191325623,13); (1191008818,13); (1190692073,13); (1190375388,13); (1190058763,13); (1189742198,13);
(1189425693,13); (1189109249,13); (1188792864,13); (1188476539,13); (1188160274,13); (1187844070,13); (1187527925,13); (1187211840,13);
(1186895815,13); (1186579850,13); (1186263945,13); (1185948099,13); (1185632314,13); (1185316588,13); (1185000922,13); (1184685316,13);
(1184369770,13); (1184054283,13); (1183738857,13); (1183423490,13); (1183108182,13); (1182792935,13); (1182477746,13); (1182162618,13);
(1181847549,13); (1181532540,13); (1181217591,13); (1180902701,13); (1180587871,13); (1180273100,13); (1179958389,13); (1179643737,13);
(1179329145,13); (1179014612,13); (1178700139,13); (1178385725,13); (1178071370,13); (1177757075,13); (1177442840,13); (1177128664,13);
(1176814547,13); (1176500489,13); (1176186491,13); (1175872552,13); (1175558673,13); (1175244853,13); (1174931092,13); (1174617390,13);
(1174303748,13); (1173990164,13); (1173676640,13); (1173363175,13); (1173049770,13); (1172736423,13); (1172423136,13); (1172109907,13);
(1171796738,13); (1171483628,13); (1171170577,13); (1170857585,13); (1170544652,13); (1170231778,13); (1169918963,13); (1169606207,13);
(1169293510,13); (1168980872,13); (1168668293,13); (1168355773,13); (1168043311,13); (1167730909,13); (1167418566,13); (1167106281,13);
(1166794055,13); (1166481888,13); (1166169780,13); (1165857730,13); (1165545739,13); (1165233807,13); (1164921934,13); (1164610120,13);
(1164298364,13); (1163986667,13); (1163675028,13); (1163363448,13); (1163051927,13); (1162740465,13); (1162429061,13); (1162117715,13);
(1161806429,13); (1161495200,13); (1161184031,13); (1160872919,13); (1160561867,13); (1160250872,13); (1159939937,13); (1159629059,13);
(1159318241,13); (1159007480,13); (1158696778,13); (1158386134,13); (1158075549,13); (1157765022,13); (1157454554,13); (1157144143,13);
(1156833791,13); (1156523498,13); (1156213262,13); (1155903085,13); (1155592966,13); (1155282905,13); (1154972903,13); (1154662959,13);
(1154353073,13); (1154043245,13); (1153733475,13); (1153423763,13); (1153114109,13); (1152804514,13); (1152494976,13); (1152185497,13);
(1151876076,13); (1151566712,13); (1151257407,13); (1150948160,13); (1150638971,13); (1150329839,13); (1150020766,13); (1149711750,13);
(1149402793,13); (1149093893,13); (1148785051,13); (1148476267,13); (1148167541,13); (1147858873,13); (1147550262,13); (1147241710,13);
(1146933215,13); (1146624778,13); (1146316398,13); (1146008077,13); (1145699813,13); (1145391606,13); (1145083458,13); (1144775367,13);
(1144467334,13); (1144159358,13); (1143851440,13); (1143543580,13); (1143235777,13); (1142928032,13); (1142620344,13); (1142312714,13);
(1142005142,13); (1141697627,13); (1141390169,13); (1141082769,13); (1140775426,13); (1140468141,13); (1140160913,13); (1139853743,13);
(1139546630,13); (1139239574,13); (1138932576,13); (1138625635,13); (1138318752,13); (1138011925,13); (1137705156,13); (1137398445,13);
(1137091790,13); (1136785193,13); (1136478653,13); (1136172170,13); (1135865745,13); (1135559377,13); (1135253065,13); (1134946811,13);
(1134640615,13); (1134334475,13); (1134028392,13); (1133722367,13); (1133416398,13); (1133110487,13); (1132804632,13); (1132498835,13);
(1132193095,13); (1131887411,13); (1131581785,13); (1131276215,13); (1130970703,13); (1130665247,13); (1130359849,13); (1130054507,13);
(1129749222,13); (1129443994,13); (1129138823,13); (1128833709,13); (1128528651,13); (1128223651,13); (1127918707,13); (1127613820,13);
(1127308989,13); (1127004216,13); (1126699499,13); (1126394838,13); (1126090235,13); (1125785688,13); (1125481198,13); (1125176764,13);
(1124872388,13); (1124568067,13); (1124263804,13); (1123959596,13); (1123655446,13); (1123351352,13); (1123047314,13); (1122743334,13);
(1122439409,13); (1122135541,13); (1121831730,13); (1121527975,13); (1121224276,13); (1120920634,13); (1120617048,13); (1120313519,13);
(1120010046,13); (1119706629,13); (1119403269,13); (1119099965,13); (1118796717,13); (1118493526,13); (1118190391,13); (1117887312,13);
(1117584289,13); (1117281323,13); (1116978413,13); (1116675559,13); (1116372761,13); (1116070020,13); (1115767335,13); (1115464705,13);
(1115162132,13); (1114859615,13); (1114557154,13); (1114254750,13); (1113952401,13); (1113650108,13); (1113347871,13); (1113045691,13);
(1112743566,13); (1112441497,13); (1112139485,13); (1111837528,13); (1111535627,13); (1111233782,13); (1110931993,13); (1110630260,13);
(1110328583,13); (1110026962,13); (1109725396,13); (1109423886,13); (1109122433,13); (1108821034,13); (1108519692,13); (1108218406,13);
(1107917175,13); (1107616000,13); (1107314881,13); (1107013817,13); (1106712809,13); (1106411857,13); (1106110960,13); (1105810119,13);
(1105509334,13); (1105208604,13); (1104907930,13); (1104607312,13); (1104306749,13); (1104006241,13); (1103705790,13); (1103405393,13);
(1103105053,13); (1102804767,13); (1102504537,13); (1102204363,13); (1101904244,13); (1101604180,13); (1101304172,13); (1101004220,13);
(1100704322,13); (1100404480,13); (1100104694,13); (1099804962,13); (1099505287,13); (1099205666,13); (1098906101,13); (1098606590,13);
(1098307136,13); (1098007736,13); (1097708392,13); (1097409103,13); (1097109869,13); (1096810690,13); (1096511566,13); (1096212498,13);
(1095913485,13); (1095614526,13); (1095315623,13); (1095016775,13); (1094717983,13); (1094419245,13); (1094120562,13); (1093821934,13);
(1093523361,13); (1093224844,13); (1092926381,13); (1092627973,13); (1092329620,13); (1092031322,13); (1091733080,13); (1091434891,13);
(1091136758,13); (1090838680,13); (1090540657,13); (1090242688,13); (1089944774,13); (1089646915,13); (1089349111,13); (1089051362,13);
(1088753668,13); (1088456028,13); (1088158443,13); (1087860912,13); (1087563437,13); (1087266016,13); (1086968650,13); (1086671338,13);
(1086374081,13); (1086076879,13); (1085779731,13); (1085482638,13); (1085185600,13); (1084888616,13); (1084591687,13); (1084294812,13);
(1083997992,13); (1083701226,13); (1083404515,13); (1083107858,13); (1082811256,13); (1082514708,13); (1082218215,13); (1081921776,13);
(1081625391,13); (1081329061,13); (1081032786,13); (1080736564,13); (1080440397,13); (1080144285,13); (1079848226,13); (1079552222,13);
(1079256273,13); (1078960377,13); (1078664536,13); (1078368749,13); (1078073016,13); (1077777338,13); (1077481714,13); (1077186143,13);
(1076890628,13); (1076595166,13); (1076299758,13); (1076004405,13); (1075709105,13); (1075413860,13); (1075118669,13); (1074823532,13);
(1074528449,13); (1074233420,13); (1073938445,13); (1073643523,13); (1073348656,13); (1073053843,13); (1072759084,13); (1072464379,13);
(1072169728,13); (1071875131,13); (1071580588,13); (1071286098,13); (1070991662,13); (1070697281,13); (1070402953,13); (1070108679,13);
(1069814459,13); (1069520292,13); (1069226180,13); (1068932121,13); (1068638116,13); (1068344164,13); (1068050267,13); (1067756423,13);
(1067462633,13); (1067168896,13); (1066875213,13); (1066581584,13); (1066288008,13); (1065994486,13); (1065701018,13); (1065407603,13);
(1065114242,13); (1064820935,13); (1064527681,13); (1064234480,13); (1063941333,13); (1063648240,13); (1063355200,13); (1063062213,13);
(1062769280,13); (1062476401,13); (1062183575,13); (1061890802,13); (1061598083,13); (1061305417,13); (1061012804,13); (1060720245,13);
(1060427739,13); (1060135287,13); (1059842887,13); (1059550542,13); (1059258249,13); (1058966010,13); (1058673824,13); (1058381691,13);
(1058089611,13); (1057797585,13); (1057505612,13); (1057213692,13); (1056921825,13); (1056630011,13); (1056338251,13); (1056046544,13);
(1055754889,13); (1055463288,13); (1055171740,13); (1054880245,13); (1054588803,13); (1054297414,13); (1054006079,13); (1053714796,13);
(1053423566,13); (1053132389,13); (1052841265,13); (1052550194,13); (1052259176,13); (1051968211,13); (1051677299,13); (1051386440,13);
(1051095633,13); (1050804880,13); (1050514179,13); (1050223531,13); (1049932936,13); (1049642394,13); (1049351905,13); (1049061468,13);
(1048771084,13); (1048480753,13); (1048190475,13); (1047900249,13); (1047610077,13); (1047319956,13); (1047029889,13); (1046739874,13);
(1046449912,13); (1046160002,13); (1045870145,13); (1045580341,13); (1045290589,13); (1045000890,13); (1044711244,13); (1044421650,13);
(1044132108,13); (1043842619,13); (1043553183,13); (1043263799,13); (1042974467,13); (1042685188,13); (1042395962,13); (1042106788,13);
(1041817666,13); (1041528597,13); (1041239580,13); (1040950615,13); (1040661703,13); (1040372843,13); (1040084036,13); (1039795281,13);
(1039506578,13); (1039217927,13); (1038929329,13); (1038640783,13); (1038352290,13); (1038063848,13); (1037775459,13); (1037487122,13);
(1037198837,13); (1036910604,13); (1036622424,13); (1036334296,13); (1036046219,13); (1035758195,13); (1035470223,13); (1035182304,13);
(1034894436,13); (1034606620,13); (1034318856,13); (1034031145,13); (1033743485,13); (1033455878,13); (1033168322,13); (1032880819,13);
(1032593367,13); (1032305967,13); (1032018620,13); (1031731324,13); (1031444080,13); (1031156888,13); (1030869748,13); (1030582660,13);
(1030295624,13); (1030008639,13); (1029721706,13); (1029434826,13); (1029147996,13); (1028861219,13); (1028574494,13); (1028287820,13);
(1028001198,13); (1027714628,13); (1027428109,13); (1027141642,13); (1026855227,13); (1026568864,13); (1026282552,13); (1025996292,13);
(1025710083,13); (1025423927,13); (1025137821,13); (1024851768,13); (1024565765,13); (1024279815,13); (1023993916,13); (1023708068,13);
(1023422273,13); (1023136528,13); (1022850835,13); (1022565194,13); (1022279604,13); (1021994065,13); (1021708578,13); (1021423142,13);
(1021137758,13); (1020852425,13); (1020567144,13); (1020281914,13); (1019996735,13); (1019711608,13); (1019426532,13); (1019141507,13);
(1018856533,13); (1018571611,13); (1018286740,13); (1018001921,13); (1017717152,13); (1017432435,13); (1017147769,13); (1016863154,13);
(1016578591,13); (1016294078,13); (1016009617,13); (1015725207,13); (1015440848,13); (1015156540,13); (1014872284,13); (1014588078,13);
(1014303923,13); (1014019820,13); (1013735767,13); (1013451766,13); (1013167816,13); (1012883916,13); (1012600068,13); (1012316271,13);
(1012032524,13); (1011748829,13); (1011465184,13); (1011181591,13); (1010898048,13); (1010614556,13); (1010331115,13); (1010047725,13);
(1009764386,13); (1009481098,13); (1009197861,13); (1008914674,13); (1008631538,13); (1008348453,13); (1008065419,13); (1007782435,13);
(1007499503,13); (1007216620,13); (1006933789,13); (1006651009,13); (1006368279,13); (1006085600,13); (1005802971,13); (1005520393,13);
(1005237866,13); (1004955389,13); (1004672963,13); (1004390588,13); (1004108263,13); (1003825989,13); (1003543765,13); (1003261592,13);
(1002979469,13); (1002697397,13); (1002415376,13); (1002133405,13); (1001851484,13); (1001569614,13); (1001287794,13); (1001006025,13);
(1000724306,13); (1000442638,13); (1000161020,13); (999879452,13); (999597935,13); (999316468,13); (999035051,13); (998753685,13);
(998472369,13); (998191103,13); (997909888,13); (997628723,13); (997347608,13); (997066544,13); (996785529,13); (996504565,13);
(996223651,13); (995942788,13); (995661974,13); (995381211,13); (995100498,13); (994819835,13); (994539222,13); (994258659,13);
(993978146,13); (993697684,13); (993417271,13); (993136908,13); (992856596,13); (992576334,13); (992296121,13); (992015959,13);
(991735847,13); (991455784,13); (991175772,13); (990895809,13); (990615897,13); (990336034,13); (990056221,13); (989776459,13);
(989496746,13); (989217083,13); (988937469,13); (988657906,13); (988378393,13); (988098929,13); (987819515,13); (987540151,13);
(987260837,13); (986981572,13); (986702357,13); (986423192,13); (986144077,13); (985865011,13); (985585995,13); (985307029,13);
(985028113,13); (984749246,13); (984470428,13); (984191661,13); (983912943,13); (983634274,13); (983355656,13); (983077086,13);
(982798567,13); (982520097,13); (982241676,13); (981963305,13); (981684984,13); (981406712,13); (981128489,13); (980850316,13);
(980572193,13); (980294118,13); (980016094,13); (979738118,13); (979460193,13); (979182316,13); (978904489,13); (978626711,13);
(978348983,13); (978071304,13); (977793674,13); (977516094,13); (977238563,13); (976961081,13); (976683649,13); (976406265,13);
(976128931,13); (975851647,13); (975574411,13); (975297225,13); (975020088,13); (974743000,13); (974465961,13); (974188972,13);
(973912031,13); (973635140,13); (973358298,13); (973081505,13); (972804761,13); (972528066,13); (972251420,13); (971974823,13);
(971698275,13); (971421777,13); (971145327,13); (970868926,13); (970592574,13); (970316272,13); (970040018,13); (969763813,13);
(969487657,13); (969211550,13); (968935492,13); (968659483,13); (968383523,13); (968107612,13); (967831749,13); (967555935,13);
(967280171,13); (967004455,13); (966728787,13); (966453169,13); (966177599,13); (965902078,13); (965626606,13); (965351183,13);
(965075808,13); (964800482,13); (964525205,13); (964249977,13); (963974797,13); (963699666,13); (963424583,13); (963149549,13);
(962874564,13); (962599627,13); (962324739,13); (962049900,13); (961775109,13); (961500367,13); (961225673,13); (960951028,13);
(960676431,13); (960401883,13); (960127383,13); (959852932,13); (959578529,13); (959304175,13); (959029869,13); (958755612,13);
(958481403,13); (958207242,13); (957933130,13); (957659066,13); (957385051,13); (957111084,13); (956837165,13); (956563295,13);
(956289473,13); (956015699,13); (955741973,13); (955468296,13); (955194667,13); (954921087,13); (954647554,13); (954374070,13);
(954100634,13); (953827246,13); (953553907,13); (953280615,13); (953007372,13); (952734177,13); (952461030,13); (952187931,13);
(951914880,13); (951641878,13); (951368923,13); (951096017,13); (950823158,13); (950550348,13); (950277586,13); (950004872,13);
(949732205,13); (949459587,13); (949187017,13); (948914495,13); (948642020,13); (948369594,13); (948097215,13); (947824885,13);
(947552602,13); (947280368,13); (947008181,13); (946736042,13); (946463951,13); (946191908,13); (945919912,13); (945647965,13);
(945376065,13); (945104213,13); (944832409,13); (944560652,13); (944288944,13); (944017283,13); (943745670,13); (943474104,13);
(943202587,13); (942931117,13); (942659694,13); (942388320,13); (942116993,13); (941845713,13); (941574481,13); (941303297,13);
(941032161,13); (940761072,13); (940490031,13); (940219037,13); (939948091,13); (939677192,13); (939406341,13); (939135537,13);
(938864781,13); (938594073,13); (938323412,13); (938052798,13); (937782232,13); (937511713,13); (937241242,13); (936970818,13);
(936700442,13); (936430113,13); (936159831,13); (935889597,13); (935619410,13); (935349270,13); (935079178,13); (934809133,13);
(934539135,13); (934269185,13); (933999282,13); (933729426,13); (933459618,13); (933189856,13); (932920142,13); (932650476,13);
(932380856,13); (932111284,13); (931841758,13); (931572280,13); (931302850,13); (931033466,13); (930764129,13); (930494840,13);
(930225597,13); (929956402,13); (929687254,13); (929418153,13); (929149099,13); (928880092,13); (928611132,13); (928342219,13);
(928073353,13); (927804534,13); (927535762,13); (927267038,13); (926998360,13); (926729729,13); (926461144,13); (926192607,13);
(925924117,13); (925655674,13); (925387277,13); (925118928,13); (924850625,13); (924582369,13); (924314160,13); (924045998,13);
(923777883,13); (923509814,13); (923241792,13); (922973817,13); (922705889,13); (922438008,13); (922170173,13); (921902385,13);
(921634644,13); (921366949,13); (921099301,13); (920831700,13); (920564145,13); (920296638,13); (920029176,13); (919761762,13);
(919494394,13); (919227072,13); (918959798,13); (918692569,13); (918425388,13); (918158253,13); (917891164,13); (917624122,13);
(917357127,13); (917090178,13); (916823275,13); (916556419,13); (916289610,13); (916022847,13); (915756130,13); (915489460,13);
(915222837,13); (914956259,13); (914689728,13); (914423244,13); (914156806,13); (913890414,13); (913624069,13); (913357770,13);
(913091517,13); (912825310,13); (912559150,13); (912293036,13); (912026969,13); (911760948,13); (911494973,13); (911229044,13);
(910963161,13); (910697325,13); (910431535,13); (910165791,13); (909900093,13); (909634442,13); (909368836,13); (909103277,13);
(908837764,13); (908572297,13); (908306876,13); (908041501,13); (907776173,13); (907510890,13); (907245653,13); (906980463,13);
(906715319,13); (906450220,13); (906185168,13); (905920161,13); (905655201,13); (905390286,13); (905125418,13); (904860595,13);
(904595819,13); (904331088,13); (904066404,13); (903801765,13); (903537172,13); (903272625,13); (903008124,13); (902743668,13);
(902479259,13); (902214895,13); (901950578,13); (901686306,13); (901422079,13); (901157899,13); (900893764,13); (900629676,13);
(900365633,13); (900101635,13); (899837684,13); (899573778,13); (899309918,13); (899046103,13); (898782334,13); (898518611,13);
(898254934,13); (897991302,13); (897727716,13); (897464175,13); (897200680,13); (896937231,13); (896673827,13); (896410469,13);
(896147156,13); (895883889,13); (895620667,13); (895357491,13); (895094361,13); (894831276,13); (894568236,13); (894305242,13);
(894042294,13); (893779391,13); (893516533,13); (893253721,13); (892990954,13); (892728233,13); (892465557,13); (892202926,13);
(891940341,13); (891677801,13); (891415306,13); (891152857,13); (890890453,13); (890628095,13); (890365782,13); (890103514,13);
(889841291,13); (889579114,13); (889316982,13); (889054895,13); (888792853,13); (888530857,13); (888268905,13); (888006999,13);
(887745139,13); (887483323,13); (887221553,13); (886959827,13); (886698147,13); (886436512,13); (886174922,13); (885913377,13);
(885651877,13); (885390423,13); (885129013,13); (884867649,13); (884606329,13); (884345055,13); (884083825,13); (883822641,13);
(883561501,13); (883300407,13); (883039358,13); (882778353,13); (882517394,13); (882256479,13); (881995609,13); (881734785,13);
(881474005,13); (881213270,13); (880952580,13); (880691935,13); (880431334,13); (880170779,13); (879910268,13); (879649802,13);
(879389381,13); (879129005,13); (878868674,13); (878608387,13); (878348145,13); (878087948,13); (877827796,13); (877567688,13);
(877307626,13); (877047607,13); (876787634,13); (876527705,13); (876267821,13); (876007982,13); (875748187,13); (875488437,13);
(875228731,13); (874969070,13); (874709454,13); (874449882,13); (874190355,13); (873930873,13); (873671435,13); (873412041,13);
(873152693,13); (872893388,13); (872634128,13); (872374913,13); (872115742,13); (871856616,13); (871597534,13); (871338497,13);
(871079504,13); (870820555,13); (870561651,13); (870302791,13); (870043976,13); (869785205,13); (869526478,13); (869267796,13);
(869009158,13); (868750565,13); (868492016,13); (868233511,13); (867975051,13); (867716634,13); (867458262,13); (867199935,13);
(866941651,13); (866683412,13); (866425217,13); (866167067,13); (865908960,13); (865650898,13); (865392880,13); (865134906,13);
(864876977,13); (864619091,13); (864361250,13); (864103452,13); (863845699,13); (863587990,13); (863330326,13); (863072705,13);
(862815128,13); (862557595,13); (862300107,13); (862042662,13); (861785262,13); (861527905,13); (861270593,13); (861013325,13);
(860756100,13); (860498920,13); (860241783,13); (859984691,13); (859727642,13); (859470638,13); (859213677,13); (858956760,13);
(858699887,13); (858443058,13); (858186273,13); (857929532,13); (857672834,13); (857416181,13); (857159571,13); (856903005,13);
(856646483,13); (856390005,13); (856133570,13); (855877180,13); (855620833,13); (855364529,13); (855108270,13); (854852054,13);
(854595882,13); (854339754,13); (854083669,13); (853827629,13); (853571631,13); (853315678,13); (853059768,13); (852803902,13);
(852548079,13); (852292300,13); (852036565,13); (851780873,13); (851525225,13); (851269620,13); (851014059,13); (850758542,13);
(850503068,13); (850247637,13); (849992250,13); (849736907,13); (849481607,13); (849226351,13); (848971138,13); (848715968,13);
(848460842,13); (848205760,13); (847950721,13); (847695725,13); (847440773,13); (847185864,13); (846930998,13); (846676176,13);
(846421397,13); (846166662,13); (845911970,13); (845657321,13); (845402716,13); (845148154,13); (844893635,13); (844639160,13);
(844384727,13); (844130338,13); (843875993,13); (843621690,13); (843367431,13); (843113215,13); (842859042,13); (842604913,13);
(842350826,13); (842096783,13); (841842783,13); (841588826,13); (841334913,13); (841081042,13); (840827214,13); (840573430,13);
(840319689,13); (840065991,13); (839812336,13); (839558724,13); (839305155,13); (839051629,13); (838798146,13); (838544706,13);
(838291309,13); (838037955,13); (837784644,13); (837531377,13); (837278152,13); (837024970,13); (836771831,13); (836518735,13);
(836265682,13); (836012671,13); (835759704,13); (835506780,13); (835253898,13); (835001060,13); (834748264,13); (834495511,13);
(834242801,13); (833990133,13); (833737509,13); (833484927,13); (833232388,13); (832979892,13); (832727439,13); (832475029,13);
(832222661,13); (831970336,13); (831718054,13); (831465814,13); (831213617,13); (830961463,13); (830709351,13); (830457283,13);
(830205256,13); (829953273,13); (829701332,13); (829449434,13); (829197578,13); (828945765,13); (828693995,13); (828442267,13);
(828190582,13); (827938939,13); (827687339,13); (827435782,13); (827184267,13); (826932794,13); (826681364,13); (826429977,13);
(826178632,13); (825927329,13); (825676069,13); (825424852,13); (825173677,13); (824922544,13); (824671454,13); (824420406,13);
(824169401,13); (823918438,13); (823667517,13); (823416639,13); (823165803,13); (822915009,13); (822664258,13); (822413549,13);
(822162883,13); (821912258,13); (821661676,13); (821411137,13); (821160639,13); (820910184,13); (820659772,13); (820409401,13);
(820159073,13); (819908786,13); (819658542,13); (819408341,13); (819158181,13); (818908064,13); (818657989,13); (818407956,13);
(818157965,13); (817908016,13); (817658110,13); (817408245,13); (817158423,13); (816908642,13); (816658904,13); (816409208,13);
(816159554,13); (815909942,13); (815660372,13); (815410844,13); (815161358,13); (814911914,13); (814662513,13); (814413153,13);
(814163835,13); (813914559,13); (813665325,13); (813416133,13); (813166983,13); (812917874,13); (812668808,13); (812419784,13);
(812170801,13); (811921861,13); (811672962,13); (811424105,13); (811175290,13); (810926517,13); (810677786,13); (810429096,13);
(810180449,13); (809931843,13); (809683279,13); (809434756,13); (809186276,13); (808937837,13); (808689440,13); (808441085,13);
(808192771,13); (807944499,13); (807696269,13); (807448081,13); (807199934,13); (806951829,13); (806703766,13); (806455744,13);
(806207764,13); (805959825,13); (805711928,13); (805464073,13); (805216259,13); (804968487,13); (804720757,13); (804473068,13);
(804225420,13); (803977815,13); (803730250,13); (803482727,13); (803235246,13); (802987806,13); (802740408,13); (802493051,13);
(802245736,13); (801998462,13); (801751230,13); (801504039,13); (801256890,13); (801009782,13); (800762715,13); (800515690,13);
(800268706,13); (800021763,13); (799774862,13); (799528002,13); (799281184,13); (799034407,13); (798787671,13); (798540977,13);
(798294324,13); (798047712,13); (797801141,13); (797554612,13); (797308124,13); (797061678,13); (796815272,13); (796568908,13);
(796322585,13); (796076303,13); (795830062,13); (795583863,13); (795337705,13); (795091588,13); (794845512,13); (794599477,13);
(794353484,13); (794107531,13); (793861620,13); (793615750,13); (793369921,13); (793124133,13); (792878386,13); (792632680,13);
(792387015,13); (792141391,13); (791895809,13); (791650267,13); (791404766,13); (791159307,13); (790913888,13); (790668510,13);
(790423174,13); (790177878,13); (789932623,13); (789687409,13); (789442236,13); (789197104,13); (788952013,13); (788706963,13);
(788461954,13); (788216986,13); (787972058,13); (787727172,13); (787482326,13); (787237521,13); (786992757,13); (786748034,13);
(786503351,13); (786258710,13); (786014109,13); (785769549,13); (785525029,13); (785280551,13); (785036113,13); (784791716,13);
(784547360,13); (784303044,13); (784058769,13); (783814535,13); (783570342,13); (783326189,13); (783082077,13); (782838006,13);
(782593975,13); (782349985,13); (782106035,13); (781862126,13); (781618258,13); (781374430,13); (781130643,13); (780886897,13);
(780643191,13); (780399525,13); (780155901,13); (779912316,13); (779668773,13); (779425269,13); (779181807,13); (778938384,13);
(778695003,13); (778451661,13); (778208361,13); (777965100,13); (777721880,13); (777478701,13); (777235562,13); (776992463,13);
(776749405,13); (776506387,13); (776263410,13); (776020473,13); (775777576,13); (775534720,13); (775291904,13); (775049128,13);
(774806393,13); (774563698,13); (774321043,13); (774078429,13); (773835855,13); (773593321,13); (773350828,13); (773108374,13);
(772865961,13); (772623589,13); (772381256,13); (772138964,13); (771896712,13); (771654500,13); (771412328,13); (771170196,13);
(770928105,13); (770686054,13); (770444043,13); (770202072,13); (769960141,13); (769718250,13); (769476400,13); (769234589,13);
(768992819,13); (768751088,13); (768509398,13); (768267748,13); (768026138,13); (767784568,13); (767543038,13); (767301547,13);
(767060097,13); (766818687,13); (766577317,13); (766335987,13); (766094697,13); (765853447,13); (765612237,13); (765371066,13);
(765129936,13); (764888846,13); (764647795,13); (764406784,13); (764165814,13); (763924883,13); (763683992,13); (763443141,13);
(763202329,13); (762961558,13); (762720826,13); (762480135,13); (762239483,13); (761998870,13); (761758298,13); (761517765,13);
(761277273,13); (761036819,13); (760796406,13); (760556033,13); (760315699,13); (760075405,13); (759835150,13); (759594935,13);
(759354760,13); (759114625,13); (758874529,13); (758634473,13); (758394457,13); (758154480,13); (757914543,13); (757674646,13);
(757434788,13); (757194970,13); (756955191,13); (756715452,13); (756475752,13); (756236092,13); (755996472,13); (755756891,13);
(755517350,13); (755277848,13); (755038386,13); (754798963,13); (754559580,13); (754320236,13); (754080932,13); (753841667,13);
(753602442,13); (753363256,13); (753124109,13); (752885002,13); (752645935,13); (752406906,13); (752167917,13); (751928968,13);
(751690058,13); (751451187,13); (751212356,13); (750973564,13); (750734811,13); (750496098,13); (750257424,13); (750018789,13);
(749780194,13); (749541638,13); (749303121,13); (749064643,13); (748826205,13); (748587806,13); (748349446,13); (748111126,13);
(747872844,13); (747634602,13); (747396399,13); (747158236,13); (746920111,13); (746682026,13); (746443979,13); (746205972,13);
(745968005,13); (745730076,13); (745492186,13); (745254336,13); (745016524,13); (744778752,13); (744541019,13); (744303325,13);
(744065669,13); (743828053,13); (743590476,13); (743352939,13); (743115440,13); (742877980,13); (742640559,13); (742403177,13);
(742165834,13); (741928530,13); (741691265,13); (741454039,13); (741216852,13); (740979704,13); (740742595,13); (740505525,13);
(740268494,13); (740031501,13); (739794548,13); (739557633,13); (739320758,13); (739083921,13); (738847123,13); (738610364,13);
(738373643,13); (738136962,13); (737900319,13); (737663715,13); (737427150,13); (737190624,13); (736954136,13); (736717688,13);
(736481278,13); (736244907,13); (736008574,13); (735772280,13); (735536025,13); (735299809,13); (735063632,13); (734827493,13);
(734591393,13); (734355331,13); (734119308,13); (733883324,13); (733647378,13); (733411472,13); (733175603,13); (732939774,13);
(732703983,13); (732468230,13); (732232516,13); (731996841,13); (731761204,13); (731525606,13); (731290047,13); (731054526,13);
(730819043,13); (730583599,13); (730348194,13); (730112827,13); (729877498,13); (729642208,13); (729406957,13); (729171744,13);
(728936569,13); (728701433,13); (728466335,13); (728231276,13); (727996255,13); (727761273,13); (727526329,13); (727291423,13);
(727056556,13); (726821727,13); (726586936,13); (726352184,13); (726117471,13); (725882795,13); (725648158,13); (725413559,13);
(725178999,13); (724944476,13); (724709992,13); (724475547,13); (724241139,13); (724006770,13); (723772439,13); (723538147,13);
(723303892,13); (723069676,13); (722835498,13); (722601359,13); (722367257,13); (722133194,13); (721899168,13); (721665181,13);
(721431233,13); (721197322,13); (720963449,13); (720729615,13); (720495818,13); (720262060,13); (720028340,13); (719794658,13);
(719561014,13); (719327408,13); (719093841,13); (718860311,13); (718626819,13); (718393366,13); (718159950,13); (717926572,13);
(717693233,13); (717459931,13); (717226668,13); (716993442,13); (716760254,13); (716527105,13); (716293993,13); (716060919,13)].

(** entries 12288..14335 *)
Definition RECIPROCAL_6 : list (Z * Z) := [
(715827883,13); (715594885,13); (715361925,13); (715129003,13); (714896119,13); (714663273,13); (714430464,13); (714197694,13);
(713964961,13); (713732266,13); (713499609,13); (713266990,13); (713034409,13); (712801865,13); (712569359,13); (712336891,13);
(712104461,13); (711872069,13); (711639714,13); (711407397,13); (711175118,13); (710942877,13); (710710673,13); (710478507,13);
(710246379,13); (710014289,13); (709782236,13); (709550221,13); (709318243,13); (709086304,13); (708854402,13); (708622537,13);
(708390710,13); (708158921,13); (707927170,13); (707695456,13); (707463779,13); (707232141,13); (707000539,13); (706768976,13);
(706537450,13); (706305961,13); (706074511,13); (705843097,13); (705611721,13); (705380383,13); (705149082,13); (704917819,13);
(704686593,13); (704455405,13); (704224254,13); (703993141,13); (703762065,13); (703531026,13); (703300025,13); (703069062,13);
(702838135,13); (702607247,13); (702376395,13); (702145581,13); (701914805,13); (701684066,13); (701453364,13); (701222699,13);
(700992072,13); (700761482,13); (700530930,13); (700300415,13); (700069937,13); (699839496,13); (699609093,13); (699378727,13);
(699148399,13); (698918107,13); (698687853,13); (698457636,13); (698227456,13); (697997314,13); (697767209,13); (697537141,13);
(697307110,13); (697077116,13); (696847160,13); (696617241,13); (696387359,13); (696157514,13); (695927706,13); (695697935,13);
(695468202,13); (695238506,13); (695008846,13); (694779224,13); (694549639,13); (694320091,13); (694090580,13); (693861107,13);
(693631670,13); (693402270,13); (693172907,13); (692943582,13); (692714293,13); (692485042,13); (692255827,13); (692026649,13);
(691797509,13); (691568405,13); (691339339,13); (691110309,13); (690881316,13); (690652360,13); (690423441,13); (690194560,13);
(689965715,13); (689736906,13); (689508135,13); (689279401,13); (689050703,13); (688822043,13); (688593419,13); (688364832,13);
(688136282,13); (687907769,13); (687679293,13); (687450853,13); (687222451,13); (686994085,13); (686765755,13); (686537463,13);
(686309208,13); (686080989,13); (685852807,13); (685624661,13); (685396553,13); (685168481,13); (684940446,13); (684712448,13);
(684484486,13); (684256561,13); (684028673,13); (683800821,13); (683573006,13); (683345228,13); (683117486,13); (682889781,13);
(682662113,13); (682434481,13); (682206886,13); (681979327,13); (681751805,13); (681524320,13); (681296871,13); (681069459,13);
(680842083,13); (680614744,13); (680387441,13); (680160175,13); (679932946,13); (679705753,13); (679478597,13); (679251477,13);
(679024393,13); (678797346,13); (678570336,13); (678343361,13); (678116424,13); (677889523,13); (677662658,13); (677435830,13);
(677209038,13); (676982282,13); (676755563,13); (676528881,13); (676302234,13); (676075625,13); (675849051,13); (675622514,13);
(675396013,13); (675169549,13); (674943120,13); (674716729,13); (674490373,13); (674264054,13); (674037771,13); (673811524,13);
(673585314,13); (673359140,13); (673133002,13); (672906901,13); (672680835,13); (672454806,13); (672228814,13); (672002857,13);
(671776937,13); (671551052,13); (671325204,13); (671099393,13); (670873617,13); (670647877,13); (670422174,13); (670196507,13);
(669970876,13); (669745281,13); (669519722,13); (669294200,13); (669068713,13); (668843263,13); (668617848,13); (668392470,13);
(668167128,13); (667941822,13); (667716552,13); (667491318,13); (667266120,13); (667040958,13); (666815832,13); (666590742,13);
(666365688,13); (666140670,13); (665915688,13); (665690742,13); (665465832,13); (665240958,13); (665016120,13); (664791318,13);
(664566551,13); (664341821,13); (664117127,13); (663892468,13); (663667846,13); (663443259,13); (663218708,13); (662994193,13);
(662769714,13); (662545271,13); (662320864,13); (662096492,13); (661872156,13); (661647857,13); (661423593,13); (661199364,13);
(660975172,13); (660751015,13); (660526894,13); (660302809,13); (660078760,13); (659854746,13); (659630768,13); (659406826,13);
(659182920,13); (658959049,13); (658735214,13); (658511415,13); (658287651,13); (658063924,13); (657840231,13); (657616575,13);
(657392954,13); (657169369,13); (656945819,13); (656722305,13); (656498827,13); (656275384,13); (656051977,13); (655828606,13);
(655605270,13); (655381969,13); (655158705,13); (654935475,13); (654712282,13); (654489124,13); (654266001,13); (654042914,13);
(653819863,13); (653596847,13); (653373866,13); (653150921,13); (652928012,13); (652705138,13); (652482299,13); (652259496,13);
(652036729,13); (651813997,13); (651591300,13); (651368639,13); (651146013,13); (650923422,13); (650700867,13); (650478348,13);
(650255863,13); (650033415,13); (649811001,13); (649588623,13); (649366280,13); (649143973,13); (648921701,13); (648699464,13);
(648477262,13); (648255096,13); (648032965,13); (647810870,13); (647588810,13); (647366785,13); (647144795,13); (646922840,13);
(646700921,13); (646479037,13); (646257189,13); (646035375,13); (645813597,13); (645591854,13); (645370146,13); (645148473,13);
(644926836,13); (644705233,13); (644483666,13); (644262134,13); (644040638,13); (643819176,13); (643597749,13); (643376358,13);
(643155002,13); (642933681,13); (642712394,13); (642491143,13); (642269928,13); (642048747,13); (641827601,13); (641606490,13);
(641385415,13); (641164374,13); (640943369,13); (640722398,13); (640501463,13); (640280562,13); (640059697,13); (639838866,13);
(639618071,13); (639397310,13); (639176584,13); (638955894,13); (638735238,13); (638514618,13); (638294032,13); (638073481,13);
(637852965,13); (637632484,13); (637412038,13); (637191627,13); (636971250,13); (636750909,13); (636530602,13); (636310331,13);
(636090094,13); (635869892,13); (635649725,13); (635429592,13); (635209495,13); (634989432,13); (634769404,13); (634549411,13);
(634329453,13); (634109529,13); (633889640,13); (633669786,13); (633449967,13); (633230182,13); (633010433,13); (632790717,13);
(632571037,13); (632351392,13); (632131781,13); (631912204,13); (631692663,13); (631473156,13); (631253684,13); (631034246,13);
(630814843,13); (630595475,13); (630376142,13); (630156843,13); (629937578,13); (629718349,13); (629499154,13); (629279993,13);
(629060867,13); (628841776,13); (628622719,13); (628403697,13); (628184709,13); (627965756,13); (627746838,13); (627527953,13);
(627309104,13); (627090289,13); (626871509,13); (626652763,13); (626434051,13); (626215374,13); (625996732,13); (625778124,13);
(625559550,13); (625341011,13); (625122506,13); (624904036,13); (624685600,13); (624467199,13); (624248832,13); (624030499,13);
(623812201,13); (623593937,13); (623375707,13); (623157512,13); (622939352,13); (622721225,13); (622503133,13); (622285076,13);
(622067052,13); (621849063,13); (621631108,13); (621413188,13); (621195302,13); (620977450,13); (620759633,13); (620541849,13);
(620324100,13); (620106385,13); (619888705,13); (619671059,13); (619453447,13); (619235869,13); (619018325,13); (618800816,13);
(618583341,13); (618365900,13); (618148493,13); (617931120,13); (617713782,13); (617496477,13); (617279207,13); (617061971,13);
(616844769,13); (616627602,13); (616410468,13); (616193368,13); (615976303,13); (615759272,13); (615542274,13); (615325311,13);
(615108382,13); (614891487,13); (614674626,13); (614457799,13); (614241006,13); (614024247,13); (613807523,13); (613590832,13);
(613374175,13); (613157552,13); (612940963,13); (612724408,13); (612507888,13); (612291401,13); (612074948,13); (611858529,13);
(611642144,13); (611425793,13); (611209475,13); (610993192,13); (610776943,13); (610560727,13); (610344546,13); (610128398,13);
(609912284,13); (609696204,13); (609480158,13); (609264146,13); (609048168,13); (608832223,13); (608616312,13); (608400436,13);
(608184593,13); (607968783,13); (607753008,13); (607537266,13); (607321558,13); (607105884,13); (606890244,13); (606674637,13);
(606459065,13); (606243525,13); (606028020,13); (605812549,13); (605597111,13); (605381706,13); (605166336,13); (604950999,13);
(604735696,13); (604520427,13); (604305191,13); (604089989,13); (603874821,13); (603659686,13); (603444585,13); (603229517,13);
(603014483,13); (602799483,13); (602584516,13); (602369583,13); (602154684,13); (601939818,13); (601724986,13); (601510187,13);
(601295422,13); (601080690,13); (600865992,13); (600651328,13); (600436697,13); (600222099,13); (600007535,13); (599793005,13);
(599578508,13); (599364045,13); (599149615,13); (598935218,13); (598720855,13); (598506526,13); (598292230,13); (598077967,13);
(597863738,13); (597649542,13); (597435380,13); (597221251,13); (597007155,13); (596793093,13); (596579064,13); (596365069,13);
(596151107,13); (595937178,13); (595723283,13); (595509421,13); (595295592,13); (595081797,13); (594868035,13); (594654307,13);
(594440611,13); (594226949,13); (594013321,13); (593799725,13); (593586163,13); (593372634,13); (593159139,13); (592945676,13);
(592732247,13); (592518851,13); (592305489,13); (592092159,13); (591878863,13); (591665600,13); (591452371,13); (591239174,13);
(591026011,13); (590812881,13); (590599784,13); (590386720,13); (590173689,13); (589960691,13); (589747727,13); (589534796,13);
(589321898,13); (589109033,13); (588896201,13); (588683402,13); (588470636,13); (588257904,13); (588045204,13); (587832538,13);
(587619904,13); (587407304,13); (587194737,13); (586982202,13); (586769701,13); (586557233,13); (586344798,13); (586132395,13);
(585920026,13); (585707690,13); (585495387,13); (585283117,13); (585070879,13); (584858675,13); (584646504,13); (584434365,13);
(584222260,13); (584010188,13); (583798148,13); (583586141,13); (583374168,13); (583162227,13); (582950319,13); (582738444,13);
(582526601,13); (582314792,13); (582103016,13); (581891272,13); (581679561,13); (581467883,13); (581256238,13); (581044626,13);
(580833047,13); (580621500,13); (580409986,13); (580198505,13); (579987057,13); (579775642,13); (579564259,13); (579352909,13);
(579141592,13); (578930307,13); (578719056,13); (578507837,13); (578296651,13); (578085497,13); (577874376,13); (577663288,13);
(577452233,13); (577241210,13); (577030220,13); (576819263,13); (576608338,13); (576397446,13); (576186587,13); (575975760,13);
(575764966,13); (575554205,13); (575343476,13); (575132780,13); (574922116,13); (574711485,13); (574500887,13); (574290321,13);
(574079788,13); (573869287,13); (573658819,13); (573448383,13); (573237980,13); (573027610,13); (572817272,13); (572606966,13);
(572396693,13); (572186453,13); (571976245,13); (571766070,13); (571555927,13); (571345816,13); (571135738,13); (570925693,13);
(570715680,13); (570505699,13); (570295751,13); (570085835,13); (569875952,13); (569666101,13); (569456282,13); (569246496,13);
(569036742,13); (568827021,13); (568617332,13); (568407675,13); (568198051,13); (567988459,13); (567778900,13); (567569373,13);
(567359878,13); (567150415,13); (566940985,13); (566731587,13); (566522222,13); (566312888,13); (566103587,13); (565894319,13);
(565685082,13); (565475878,13); (565266706,13); (565057567,13); (564848459,13); (564639384,13); (564430341,13); (564221330,13);
(564012352,13); (563803406,13); (563594492,13); (563385610,13); (563176760,13); (562967942,13); (562759157,13); (562550404,13);
(562341683,13); (562132994,13); (561924337,13); (561715713,13); (561507120,13); (561298560,13); (561090031,13); (560881535,13);
(560673071,13); (560464639,13); (560256239,13); (560047871,13); (559839536,13); (559631232,13); (559422960,13); (559214721,13);
(559006513,13); (558798338,13); (558590194,13); (558382083,13); (558174003,13); (557965956,13); (557757940,13); (557549957,13);
(557342005,13); (557134086,13); (556926198,13); (556718342,13); (556510519,13); (556302727,13); (556094967,13); (555887239,13);
(555679543,13); (555471879,13); (555264247,13); (555056647,13); (554849078,13); (554641542,13); (554434037,13); (554226564,13);
(554019123,13); (553811714,13); (553604337,13); (553396992,13); (553189678,13); (552982397,13); (552775147,13); (552567929,13);
(552360742,13); (552153588,13); (551946465,13); (551739374,13); (551532315,13); (551325288,13); (551118292,13); (550911328,13);
(550704396,13); (550497496,13); (550290627,13); (550083790,13); (549876985,13); (549670211,13); (549463470,13); (549256759,13);
(549050081,13); (548843434,13); (548636819,13); (548430236,13); (548223684,13); (548017164,13); (547810675,13); (547604218,13);
(547397793,13); (547191400,13); (546985038,13); (546778707,13); (546572408,13); (546366141,13); (546159905,13); (545953701,13);
(545747529,13); (545541388,13); (545335279,13); (545129201,13); (544923155,13); (544717140,13); (544511157,13); (544305205,13);
(544099285,13); (543893396,13); (543687539,13); (543481713,13); (543275919,13); (543070156,13); (542864425,13); (542658725,13);
(542453057,13); (542247420,13); (542041814,13); (541836240,13); (541630697,13); (541425186,13); (541219706,13); (541014258,13);
(540808841,13); (540603455,13); (540398101,13); (540192778,13); (539987487,13); (539782227,13); (539576998,13); (539371800,13);
(539166634,13); (538961499,13); (538756396,13); (538551324,13); (538346283,13); (538141273,13); (537936295,13); (537731348,13);
(537526433,13); (537321548,13); (537116695,13); (536911873,13); (536707082,13); (536502323,13); (536297595,13); (536092898,13);
(535888232,13); (535683598,13); (535478995,13); (535274423,13); (535069882,13); (534865372,13); (534660893,13); (534456446,13);
(534252030,13); (534047645,13); (533843291,13); (533638968,13); (533434677,13); (533230416,13); (533026187,13); (532821989,13);
(532617822,13); (532413686,13); (532209581,13); (532005507,13); (531801464,13); (531597453,13); (531393472,13); (531189523,13);
(530985604,13); (530781717,13); (530577860,13); (530374035,13); (530170241,13); (529966477,13); (529762745,13); (529559044,13);
(529355373,13); (529151734,13); (528948126,13); (528744548,13); (528541002,13); (528337486,13); (528134002,13); (527930548,13);
(527727126,13); (527523734,13); (527320373,13); (527117043,13); (526913744,13); (526710476,13); (526507239,13); (526304033,13);
(526100858,13); (525897713,13); (525694600,13); (525491517,13); (525288465,13); (525085444,13); (524882454,13); (524679494,13);
(524476566,13); (524273668,13); (524070801,13); (523867965,13); (523665160,13); (523462385,13); (523259641,13); (523056929,13);
(522854246,13); (522651595,13); (522448974,13); (522246384,13); (522043825,13); (521841297,13); (521638799,13); (521436332,13);
(521233896,13); (521031490,13); (520829115,13); (520626771,13); (520424458,13); (520222175,13); (520019923,13); (519817701,13);
(519615510,13); (519413350,13); (519211221,13); (519009122,13); (518807053,13); (518605016,13); (518403009,13); (518201032,13);
(517999087,13); (517797171,13); (517595287,13); (517393433,13); (517191609,13); (516989816,13); (516788054,13); (516586322,13);
(516384621,13); (516182950,13); (515981310,13); (515779700,13); (515578121,13); (515376573,13); (515175055,13); (514973567,13);
(514772110,13); (514570683,13); (514369287,13); (514167921,13); (513966586,13); (513765281,13); (513564007,13); (513362763,13);
(513161550,13); (512960367,13); (512759214,13); (512558092,13); (512357000,13); (512155939,13); (511954908,13); (511753907,13);
(511552937,13); (511351997,13); (511151088,13); (510950209,13); (510749360,13); (510548542,13); (510347754,13); (510146996,13);
(509946269,13); (509745572,13); (509544905,13); (509344268,13); (509143662,13); (508943086,13); (508742541,13); (508542025,13);
(508341540,13); (508141086,13); (507940661,13); (507740267,13); (507539903,13); (507339569,13); (507139265,13); (506938992,13);
(506738749,13); (506538536,13); (506338353,13); (506138201,13); (505938079,13); (505737987,13); (505537925,13); (505337893,13);
(505137891,13); (504937920,13); (504737978,13); (504538067,13); (504338186,13); (504138335,13); (503938514,13); (503738724,13);
(503538963,13); (503339233,13); (503139532,13); (502939862,13); (502740222,13); (502540612,13); (502341032,13); (502141482,13);
(501941962,13); (501742472,13); (501543012,13); (501343582,13); (501144182,13); (500944812,13); (500745473,13); (500546163,13);
(500346883,13); (500147633,13); (499948413,13); (499749224,13); (499550064,13); (499350934,13); (499151834,13); (498952764,13);
(498753724,13); (498554714,13); (498355734,13); (498156783,13); (497957863,13); (497758973,13); (497560112,13); (497361281,13);
(497162481,13); (496963710,13); (496764969,13); (496566258,13); (496367576,13); (496168925,13); (495970304,13); (495771712,13);
(495573150,13); (495374618,13); (495176116,13); (494977643,13); (494779201,13); (494580788,13); (494382405,13); (494184052,13);
(493985729,13); (493787435,13); (493589171,13); (493390937,13); (493192733,13); (492994558,13); (492796413,13); (492598298,13);
(492400213,13); (492202157,13); (492004131,13); (491806135,13); (491608168,13); (491410232,13); (491212324,13); (491014447,13);
(490816599,13); (490618781,13); (490420993,13); (490223234,13); (490025505,13); (489827805,13); (489630135,13); (489432495,13);
(489234884,13); (489037303,13); (488839752,13); (488642230,13); (488444738,13); (488247275,13); (488049842,13); (487852439,13);
(487655065,13); (487457721,13); (487260406,13); (487063121,13); (486865865,13); (486668639,13); (486471442,13); (486274275,13);
(486077138,13); (485880030,13); (485682951,13); (485485902,13); (485288882,13); (485091892,13); (484894932,13); (484698001,13);
(484501099,13); (484304227,13); (484107384,13); (483910570,13); (483713787,13); (483517032,13); (483320307,13); (483123611,13);
(482926945,13); (482730308,13); (482533701,13); (482337123,13); (482140574,13); (481944055,13); (481747565,13); (481551105,13);
(481354674,13); (481158272,13); (480961899,13); (480765556,13); (480569242,13); (480372958,13); (480176703,13); (479980477,13);
(479784280,13); (479588113,13); (479391975,13); (479195866,13); (478999787,13); (478803737,13); (478607716,13); (478411724,13);
(478215762,13); (478019829,13); (477823925,13); (477628051,13); (477432205,13); (477236389,13); (477040602,13); (476844844,13);
(476649116,13); (476453416,13); (476257746,13); (476062105,13); (475866493,13); (475670911,13); (475475357,13); (475279833,13);
(475084338,13); (474888872,13); (474693435,13); (474498027,13); (474302648,13); (474107299,13); (473911978,13); (473716687,13);
(473521425,13); (473326192,13); (473130987,13); (472935812,13); (472740667,13); (472545550,13); (472350462,13); (472155403,13);
(471960373,13); (471765373,13); (471570401,13); (471375458,13); (471180545,13); (470985660,13); (470790805,13); (470595978,13);
(470401181,13); (470206412,13); (470011672,13); (469816962,13); (469622280,13); (469427627,13); (469233003,13); (469038409,13);
(468843843,13); (468649306,13); (468454798,13); (468260319,13); (468065868,13); (467871447,13); (467677055,13); (467482691,13);
(467288357,13); (467094051,13); (466899774,13); (466705526,13); (466511307,13); (466317117,13); (466122955,13); (465928823,13);
(465734719,13); (465540644,13); (465346598,13); (465152581,13); (464958593,13); (464764633,13); (464570702,13); (464376800,13);
(464182927,13); (463989082,13); (463795267,13); (463601480,13); (463407722,13); (463213992,13); (463020291,13); (462826619,13);
(462632976,13); (462439362,13); (462245776,13); (462052219,13); (461858691,13); (461665191,13); (461471720,13); (461278278,13);
(461084864,13); (460891480,13); (460698123,13); (460504796,13); (460311497,13); (460118227,13); (459924985,13); (459731772,13);
(459538588,13); (459345432,13); (459152305,13); (458959207,13); (458766137,13); (458573096,13); (458380083,13); (458187099,13);
(457994143,13); (457801217,13); (457608318,13); (457415448,13); (457222607,13); (457029795,13); (456837010,13); (456644255,13);
(456451528,13); (456258829,13); (456066159,13); (455873518,13); (455680905,13); (455488320,13); (455295764,13); (455103237,13);
(454910738,13); (454718267,13); (454525825,13); (454333411,13); (454141026,13); (453948670,13); (453756341,13); (453564041,13);
(453371770,13); (453179527,13); (452987313,13); (452795126,13); (452602969,13); (452410839,13); (452218738,13); (452026666,13);
(451834621,13); (451642606,13); (451450618,13); (451258659,13); (451066728,13); (450874826,13); (450682952,13); (450491106,13);
(450299289,13); (450107500,13); (449915739,13); (449724007,13); (449532302,13); (449340627,13); (449148979,13); (448957360,13);
(448765769,13); (448574206,13); (448382672,13); (448191165,13); (447999687,13); (447808238,13); (447616816,13); (447425423,13);
(447234058,13); (447042721,13); (446851413,13); (446660133,13); (446468880,13); (446277657,13); (446086461,13); (445895293,13);
(445704154,13); (445513043,13); (445321960,13); (445130905,13); (444939878,13); (444748879,13); (444557909,13); (444366967,13);
(444176053,13); (443985167,13); (443794309,13); (443603479,13); (443412677,13); (443221904,13); (443031158,13); (442840441,13);
(442649751,13); (442459090,13); (442268457,13); (442077852,13); (441887275,13); (441696726,13); (441506205,13); (441315712,13);
(441125247,13); (440934810,13); (440744401,13); (440554020,13); (440363667,13); (440173342,13); (439983045,13); (439792776,13);
(439602536,13); (439412323,13); (439222138,13); (439031981,13); (438841852,13); (438651750,13); (438461677,13); (438271632,13);
(438081615,13); (437891625,13); (437701664,13); (437511730,13); (437321825,13); (437131947,13); (436942097,13); (436752275,13);
(436562481,13); (436372715,13); (436182977,13); (435993266,13); (435803584,13); (435613929,13); (435424302,13); (435234703,13);
(435045132,13); (434855588,13); (434666073,13); (434476585,13); (434287125,13); (434097693,13); (433908289,13); (433718912,13);
(433529563,13); (433340242,13); (433150949,13); (432961684,13); (432772446,13); (432583236,13); (432394054,13); (432204899,13);
(432015773,13); (431826674,13); (431637602,13); (431448559,13); (431259543,13); (431070555,13); (430881594,13); (430692661,13);
(430503756,13); (430314879,13); (430126029,13); (429937207,13); (429748413,13); (429559646,13); (429370907,13); (429182196,13);
(428993512,13); (428804856,13); (428616227,13); (428427626,13); (428239053,13); (428050507,13); (427861989,13); (427673499,13);
(427485036,13); (427296600,13); (427108193,13); (426919813,13); (426731460,13); (426543135,13); (426354837,13); (426166567,13);
(425978325,13); (425790110,13); (425601923,13); (425413763,13); (425225631,13); (425037526,13); (424849449,13); (424661399,13);
(424473377,13); (424285382,13); (424097414,13); (423909475,13); (423721562,13); (423533677,13); (423345820,13); (423157990,13);
(422970187,13); (422782412,13); (422594664,13); (422406944,13); (422219251,13); (422031586,13); (421843948,13); (421656337,13);
(421468754,13); (421281198,13); (421093670,13); (420906168,13); (420718695,13); (420531248,13); (420343829,13); (420156438,13);
(419969074,13); (419781737,13); (419594427,13); (419407145,13); (419219890,13); (419032662,13); (418845462,13); (418658289,13);
(418471143,13); (418284025,13); (418096934,13); (417909870,13); (417722833,13); (417535824,13); (417348842,13); (417161887,13);
(416974960,13); (416788059,13); (416601186,13); (416414340,13); (416227522,13); (416040731,13); (415853966,13); (415667230,13);
(415480520,13); (415293837,13); (415107182,13); (414920554,13); (414733953,13); (414547379,13); (414360833,13); (414174313,13);
(413987821,13); (413801356,13); (413614918,13); (413428507,13); (413242123,13); (413055767,13); (412869437,13); (412683135,13);
(412496860,13); (412310611,13); (412124390,13); (411938196,13); (411752030,13); (411565890,13); (411379777,13); (411193692,13);
(411007633,13); (410821601,13); (410635597,13); (410449620,13); (410263669,13); (410077746,13); (409891850,13); (409705980,13);
(409520138,13); (409334323,13); (409148535,13); (408962773,13); (408777039,13); (408591332,13); (408405651,13); (408219998,13);
(408034372,13); (407848772,13); (407663200,13); (407477654,13); (407292136,13); (407106644,13); (406921180,13); (406735742,13);
(406550331,13); (406364947,13); (406179590,13); (405994260,13); (405808957,13); (405623681,13); (405438431,13); (405253209,13);
(405068013,13); (404882844,13); (404697702,13); (404512587,13); (404327499,13); (404142438,13); (403957403,13); (403772395,13);
(403587415,13); (403402461,13); (403217533,13); (403032633,13); (402847759,13); (402662913,13); (402478093,13); (402293299,13);
(402108533,13); (401923793,13); (401739080,13); (401554394,13); (401369735,13); (401185102,13); (401000496,13); (400815917,13);
(400631365,13); (400446839,13); (400262340,13); (400077868,13); (399893422,13); (399709004,13); (399524611,13); (399340246,13);
(399155907,13); (398971595,13); (398787310,13); (398603051,13); (398418819,13); (398234614,13); (398050435,13); (397866283,13);
(397682158,13); (397498059,13); (397313987,13); (397129941,13); (396945922,13); (396761930,13); (396577964,13); (396394025,13);
(396210113,13); (396026227,13); (395842367,13); (395658535,13); (395474728,13); (395290949,13); (395107196,13); (394923469,13);
(394739769,13); (394556096,13); (394372449,13); (394188829,13); (394005235,13); (393821668,13); (393638127,13); (393454613,13);
(393271125,13); (393087664,13); (392904229,13); (392720821,13); (392537439,13); (392354084,13); (392170755,13); (391987452,13);
(391804176,13); (391620927,13); (391437704,13); (391254507,13); (391071337,13); (390888194,13); (390705076,13); (390521985,13);
(390338921,13); (390155883,13); (389972871,13); (389789886,13); (389606927,13); (389423995,13); (389241089,13); (389058209,13);
(388875355,13); (388692528,13); (388509728,13); (388326953,13); (388144206,13); (387961484,13); (387778789,13); (387596120,13);
(387413477,13); (387230861,13); (387048271,13); (386865707,13); (386683170,13); (386500659,13); (386318174,13); (386135715,13);
(385953283,13); (385770877,13); (385588497,13); (385406144,13); (385223816,13); (385041515,13); (384859241,13); (384676992,13);
(384494770,13); (384312574,13); (384130404,13); (383948260,13); (383766143,13); (383584052,13); (383401987,13); (383219948,13);
(383037935,13); (382855949,13); (382673989,13); (382492055,13); (382310147,13); (382128265,13); (381946409,13); (381764580,13);
(381582776,13); (381400999,13); (381219248,13); (381037523,13); (380855824,13); (380674152,13); (380492505,13); (380310884,13);
(380129290,13); (379947722,13); (379766179,13); (379584663,13); (379403173,13); (379221709,13); (379040271,13); (378858859,13);
(378677473,13); (378496113,13); (378314780,13); (378133472,13); (377952190,13); (377770934,13); (377589705,13); (377408501,13);
(377227323,13); (377046172,13); (376865046,13); (376683946,13); (376502873,13); (376321825,13); (376140803,13); (375959807,13);
(375778837,13); (375597893,13); (375416976,13); (375236084,13); (375055217,13); (374874377,13); (374693563,13); (374512775,13);
(374332013,13); (374151276,13); (373970566,13); (373789881,13); (373609222,13); (373428589,13); (373247982,13); (373067401,13);
(372886846,13); (372706317,13); (372525813,13); (372345335,13); (372164884,13); (371984458,13); (371804058,13); (371623683,13);
(371443335,13); (371263012,13); (371082715,13); (370902444,13); (370722199,13); (370541980,13); (370361786,13); (370181618,13);
(370001476,13); (369821360,13); (369641269,13); (369461205,13); (369281166,13); (369101153,13); (368921165,13); (368741203,13);
(368561267,13); (368381357,13); (368201473,13); (368021614,13); (367841781,13); (367661973,13); (367482192,13); (367302436,13);
(367122705,13); (366943001,13); (366763322,13); (366583669,13); (366404041,13); (366224439,13); (366044863,13); (365865312,13);
(365685787,13); (365506288,13); (365326814,13); (365147366,13); (364967944,13); (364788547,13); (364609176,13); (364429831,13);
(364250511,13); (364071216,13); (363891948,13); (363712705,13); (363533487,13); (363354295,13); (363175129,13); (362995988,13);
(362816873,13); (362637783,13); (362458719,13); (362279680,13); (362100667,13); (361921679,13); (361742717,13); (361563781,13);
(361384870,13); (361205985,13); (361027125,13); (360848290,13); (360669481,13); (360490698,13); (360311940,13); (360133207,13);
(359954500,13); (359775819,13); (359597163,13); (359418532,13); (359239927,13); (359061347,13); (358882793,13); (358704264,13);
(358525761,13); (358347283,13); (358168830,13); (357990403,13); (357812001,13); (357633625,13); (357455274,13); (357276948,13);
(357098648,13); (356920373,13); (356742124,13); (356563900,13); (356385701,13); (356207528,13); (356029380,13); (355851257,13);
(355673160,13); (355495088,13); (355317042,13); (355139020,13); (354961025,13); (354783054,13); (354605109,13); (354427189,13);
(354249294,13); (354071425,13); (353893580,13); (353715762,13); (353537968,13); (353360200,13); (353182457,13); (353004739,13);
(352827047,13); (352649379,13); (352471738,13); (352294121,13); (352116529,13); (351938963,13); (351761422,13); (351583906,13);
(351406416,13); (351228950,13); (351051510,13); (350874095,13); (350696705,13); (350519341,13); (350342001,13); (350164687,13);
(349987398,13); (349810134,13); (349632895,13); (349455682,13); (349278493,13); (349101330,13); (348924192,13); (348747079,13);
(348569991,13); (348392928,13); (348215891,13); (348038878,13); (347861891,13); (347684928,13); (347507991,13); (347331079,13);
(347154192,13); (346977330,13); (346800493,13); (346623681,13); (346446895,13); (346270133,13); (346093396,13); (345916685,13);
(345739998,13); (345563337,13); (345386700,13); (345210089,13); (345033502,13); (344856941,13); (344680405,13); (344503893,13);
(344327407,13); (344150946,13); (343974509,13); (343798098,13); (343621711,13); (343445350,13); (343269013,13); (343092702,13);
(342916415,13); (342740154,13); (342563917,13); (342387705,13); (342211519,13); (342035357,13); (341859220,13); (341683108,13);
(341507021,13); (341330959,13); (341154922,13); (340978909,13); (340802922,13); (340626959,13); (340451021,13); (340275109,13);
(340099221,13); (339923358,13); (339747520,13); (339571706,13); (339395918,13); (339220154,13); (339044415,13); (338868701,13);
(338693012,13); (338517348,13); (338341709,13); (338166094,13); (337990504,13); (337814939,13); (337639399,13); (337463883,13);
(337288393,13); (337112927,13); (336937486,13); (336762069,13); (336586678,13); (336411311,13); (336235969,13); (336060652,13);
(335885359,13); (335710092,13); (335534849,13); (335359630,13); (335184437,13); (335009268,13); (334834124,13); (334659004,13);
(334483910,13); (334308840,13); (334133794,13); (333958774,13); (333783778,13); (333608806,13); (333433860,13); (333258938,13);
(333084041,13); (332909168,13); (332734320,13); (332559497,13); (332384698,13); (332209924,13); (332035175,13); (331860450,13);
(331685750,13); (331511074,13); (331336424,13); (331161797,13); (330987196,13); (330812619,13); (330638066,13); (330463538,13);
(330289035,13); (330114556,13); (329940102,13); (329765672,13); (329591267,13); (329416887,13); (329242531,13); (329068199,13);
(328893893,13); (328719610,13); (328545352,13); (328371119,13); (328196910,13); (328022726,13); (327848566,13); (327674431,13);
(327500320,13); (327326234,13); (327152173,13); (326978135,13); (326804122,13); (326630134,13); (326456170,13); (326282231,13);
(326108316,13); (325934426,13); (325760560,13); (325586718,13); (325412901,13); (325239108,13); (325065340,13); (324891596,13);
(324717876,13); (324544181,13); (324370511,13); (324196865,13); (324023243,13); (323849645,13); (323676072,13); (323502523,13);
(323328999,13); (323155499,13); (322982024,13); (322808572,13); (322635146,13); (322461743,13); (322288365,13); (322115011,13);
(321941682,13); (321768376,13); (321595096,13); (321421839,13); (321248607,13); (321075399,13); (320902215,13); (320729056,13);
(320555921,13); (320382810,13); (320209724,13); (320036662,13); (319863624,13); (319690610,13); (319517621,13); (319344656,13);
(319171715,13); (318998798,13); (318825906,13); (318653038,13); (318480194,13); (318307374,13); (318134579,13); (317961808,13);
(317789061,13); (317616338,13); (317443639,13); (317270965,13); (317098314,13); (316925688,13); (316753087,13); (316580509,13);
(316407955,13); (316235426,13); (316062921,13); (315890440,13); (315717983,13); (315545550,13); (315373142,13); (315200757,13);
(315028397,13); (314856061,13); (314683748,13); (314511461,13); (314339197,13); (314166957,13); (313994741,13); (313822550,13);
(313650382,13); (313478239,13); (313306120,13); (313134024,13); (312961953,13); (312789906,13); (312617883,13); (312445884,13);
(312273909,13); (312101958,13); (311930031,13); (311758128,13); (311586250,13); (311414395,13); (311242564,13); (311070757,13);
(310898975,13); (310727216,13); (310555481,13); (310383771,13); (310212084,13); (310040421,13); (309868782,13); (309697167,13);
(309525577,13); (309354010,13); (309182467,13); (309010948,13); (308839453,13); (308667982,13); (308496535,13); (308325111,13);
(308153712,13); (307982337,13); (307810985,13); (307639658,13); (307468354,13); (307297075,13); (307125819,13); (306954587,13)].

(** entries 14336..16383 *)
Definition RECIPROCAL_7 : list (Z * Z) := [
(306783379,13); (306612195,13); (306441034,13); (306269898,13); (306098785,13); (305927697,13); (305756632,13); (305585591,13);
(305414574,13); (305243581,13); (305072611,13); (304901666,13); (304730744,13); (304559846,13); (304388972,13); (304218122,13);
(304047295,13); (303876492,13); (303705714,13); (303534958,13); (303364227,13); (303193520,13); (303022836,13); (302852176,13);
(302681540,13); (302510927,13); (302340339,13); (302169774,13); (301999233,13); (301828715,13); (301658221,13); (301487751,13);
(301317305,13); (301146883,13); (300976484,13); (300806109,13); (300635758,13); (300465430,13); (300295126,13); (300124846,13);
(299954589,13); (299784356,13); (299614147,13); (299443961,13); (299273800,13); (299103661,13); (298933547,13); (298763456,13);
(298593389,13); (298423345,13); (298253325,13); (298083329,13); (297913356,13); (297743407,13); (297573482,13); (297403580,13);
(297233702,13); (297063847,13); (296894016,13); (296724209,13); (296554425,13); (296384665,13); (296214928,13); (296045215,13);
(295875525,13); (295705859,13); (295536217,13); (295366598,13); (295197003,13); (295027431,13); (294857883,13); (294688358,13);
(294518857,13); (294349380,13); (294179926,13); (294010495,13); (293841088,13); (293671705,13); (293502345,13); (293333008,13);
(293163695,13); (292994405,13); (292825139,13); (292655897,13); (292486678,13); (292317482,13); (292148310,13); (291979161,13);
(291810036,13); (291640934,13); (291471856,13); (291302801,13); (291133769,13); (290964761,13); (290795777,13); (290626815,13);
(290457878,13); (290288963,13); (290120072,13); (289951205,13); (289782360,13); (289613540,13); (289444742,13); (289275968,13);
(289107217,13); (288938490,13); (288769786,13); (288601106,13); (288432448,13); (288263815,13); (288095204,13); (287926617,13);
(287758053,13); (287589512,13); (287420995,13); (287252501,13); (287084031,13); (286915584,13); (286747160,13); (286578759,13);
(286410382,13); (286242028,13); (286073697,13); (285905390,13); (285737106,13); (285568845,13); (285400607,13); (285232393,13);
(285064202,13); (284896034,13); (284727889,13); (284559768,13); (284391670,13); (284223595,13); (284055543,13); (283887515,13);
(283719510,13); (283551528,13); (283383569,13); (283215633,13); (283047721,13); (282879832,13); (282711966,13); (282544123,13);
(282376303,13); (282208507,13); (282040734,13); (281872984,13); (281705257,13); (281537553,13); (281369872,13); (281202215,13);
(281034581,13); (280866969,13); (280699381,13); (280531817,13); (280364275,13); (280196756,13); (280029261,13); (279861788,13);
(279694339,13); (279526913,13); (279359509,13); (279192129,13); (279024772,13); (278857439,13); (278690128,13); (278522840,13);
(278355575,13); (278188334,13); (278021115,13); (277853920,13); (277686747,13); (277519598,13); (277352472,13); (277185368,13);
(277018288,13); (276851231,13); (276684197,13); (276517185,13); (276350197,13); (276183232,13); (276016290,13); (275849371,13);
(275682474,13); (275515601,13); (275348751,13); (275181924,13); (275015119,13); (274848338,13); (274681580,13); (274514844,13);
(274348132,13); (274181442,13); (274014776,13); (273848132,13); (273681511,13); (273514914,13); (273348339,13); (273181787,13);
(273015258,13); (272848752,13); (272682269,13); (272515808,13); (272349371,13); (272182957,13); (272016565,13); (271850196,13);
(271683850,13); (271517527,13); (271351227,13); (271184950,13); (271018696,13); (270852464,13); (270686256,13); (270520070,13);
(270353907,13); (270187767,13); (270021649,13); (269855555,13); (269689483,13); (269523434,13); (269357408,13); (269191405,13);
(269025425,13); (268859467,13); (268693532,13); (268527620,13); (268361731,13); (268195864,13); (268030021,13); (267864200,13);
(267698401,13); (267532626,13); (267366873,13); (267201143,13); (267035436,13); (266869752,13); (266704090,13); (266538451,13);
(266372835,13); (266207241,13); (266041671,13); (265876123,13); (265710597,13); (265545095,13); (265379615,13); (265214157,13);
(265048723,13); (264883311,13); (264717922,13); (264552555,13); (264387211,13); (264221890,13); (264056592,13); (263891316,13);
(263726063,13); (263560832,13); (263395624,13); (263230439,13); (263065276,13); (262900136,13); (262735019,13); (262569924,13);
(262404852,13); (262239802,13); (262074775,13); (261909771,13); (261744789,13); (261579830,13); (261414893,13); (261249979,13);
(261085088,13); (260920219,13); (260755373,13); (260590549,13); (260425748,13); (260260970,13); (260096214,13); (259931480,13);
(259766769,13); (259602081,13); (259437415,13); (259272771,13); (259108151,13); (258943552,13); (258778977,13); (258614423,13);
(258449892,13); (258285384,13); (258120898,13); (257956435,13); (257791994,13); (257627576,13); (257463180,13); (257298807,13);
(257134456,13); (256970127,13); (256805821,13); (256641538,13); (256477277,13); (256313038,13); (256148822,13); (255984628,13);
(255820457,13); (255656308,13); (255492182,13); (255328077,13); (255163996,13); (254999937,13); (254835900,13); (254671885,13);
(254507893,13); (254343924,13); (254179976,13); (254016051,13); (253852149,13); (253688269,13); (253524411,13); (253360576,13);
(253196762,13); (253032972,13); (252869203,13); (252705457,13); (252541734,13); (252378032,13); (252214353,13); (252050697,13);
(251887062,13); (251723450,13); (251559861,13); (251396293,13); (251232748,13); (251069225,13); (250905725,13); (250742246,13);
(250578790,13); (250415357,13); (250251945,13); (250088556,13); (249925189,13); (249761845,13); (249598522,13); (249435222,13);
(249271944,13); (249108689,13); (248945455,13); (248782244,13); (248619055,13); (248455889,13); (248292744,13); (248129622,13);
(247966522,13); (247803444,13); (247640388,13); (247477355,13); (247314344,13); (247151355,13); (246988388,13); (246825443,13);
(246662521,13); (246499620,13); (246336742,13); (246173886,13); (246011052,13); (245848241,13); (245685451,13); (245522684,13);
(245359939,13); (245197215,13); (245034514,13); (244871836,13); (244709179,13); (244546544,13); (244383932,13); (244221341,13);
(244058773,13); (243896227,13); (243733703,13); (243571201,13); (243408721,13); (243246263,13); (243083827,13); (242921413,13);
(242759022,13); (242596652,13); (242434304,13); (242271979,13); (242109676,13); (241947394,13); (241785135,13); (241622898,13);
(241460682,13); (241298489,13); (241136318,13); (240974169,13); (240812041,13); (240649936,13); (240487853,13); (240325792,13);
(240163753,13); (240001735,13); (239839740,13); (239677767,13); (239515816,13); (239353887,13); (239191979,13); (239030094,13);
(238868230,13); (238706389,13); (238544570,13); (238382772,13); (238220996,13); (238059243,13); (237897511,13); (237735801,13);
(237574113,13); (237412447,13); (237250803,13); (237089181,13); (236927581,13); (236766003,13); (236604446,13); (236442912,13);
(236281399,13); (236119908,13); (235958440,13); (235796993,13); (235635567,13); (235474164,13); (235312783,13); (235151423,13);
(234990085,13); (234828770,13); (234667476,13); (234506203,13); (234344953,13); (234183725,13); (234022518,13); (233861333,13);
(233700170,13); (233539029,13); (233377909,13); (233216812,13); (233055736,13); (232894682,13); (232733650,13); (232572639,13);
(232411651,13); (232250684,13); (232089739,13); (231928815,13); (231767914,13); (231607034,13); (231446176,13); (231285340,13);
(231124525,13); (230963732,13); (230802961,13); (230642212,13); (230481484,13); (230320778,13); (230160094,13); (229999432,13);
(229838791,13); (229678172,13); (229517575,13); (229356999,13); (229196445,13); (229035913,13); (228875402,13); (228714913,13);
(228554446,13); (228394000,13); (228233577,13); (228073174,13); (227912794,13); (227752435,13); (227592098,13); (227431782,13);
(227271488,13); (227111216,13); (226950965,13); (226790736,13); (226630529,13); (226470343,13); (226310178,13); (226150036,13);
(225989915,13); (225829815,13); (225669738,13); (225509681,13); (225349647,13); (225189634,13); (225029642,13); (224869672,13);
(224709724,13); (224549797,13); (224389892,13); (224230009,13); (224070147,13); (223910306,13); (223750487,13); (223590690,13);
(223430914,13); (223271159,13); (223111427,13); (222951715,13); (222792025,13); (222632357,13); (222472710,13); (222313085,13);
(222153481,13); (221993899,13); (221834338,13); (221674799,13); (221515281,13); (221355785,13); (221196310,13); (221036857,13);
(220877425,13); (220718014,13); (220558625,13); (220399258,13); (220239912,13); (220080587,13); (219921284,13); (219762002,13);
(219602742,13); (219443503,13); (219284285,13); (219125089,13); (218965915,13); (218806761,13); (218647629,13); (218488519,13);
(218329430,13); (218170362,13); (218011316,13); (217852291,13); (217693288,13); (217534306,13); (217375345,13); (217216406,13);
(217057488,13); (216898591,13); (216739716,13); (216580862,13); (216422029,13); (216263218,13); (216104428,13); (215945659,13);
(215786912,13); (215628186,13); (215469481,13); (215310798,13); (215152136,13); (214993495,13); (214834876,13); (214676278,13);
(214517701,13); (214359146,13); (214200611,13); (214042098,13); (213883607,13); (213725136,13); (213566687,13); (213408259,13);
(213249853,13); (213091467,13); (212933103,13); (212774761,13); (212616439,13); (212458139,13); (212299859,13); (212141602,13);
(211983365,13); (211825149,13); (211666955,13); (211508782,13); (211350630,13); (211192500,13); (211034390,13); (210876302,13);
(210718235,13); (210560189,13); (210402165,13); (210244161,13); (210086179,13); (209928218,13); (209770278,13); (209612359,13);
(209454461,13); (209296585,13); (209138730,13); (208980895,13); (208823082,13); (208665290,13); (208507520,13); (208349770,13);
(208192041,13); (208034334,13); (207876648,13); (207718982,13); (207561338,13); (207403715,13); (207246113,13); (207088533,13);
(206930973,13); (206773434,13); (206615917,13); (206458420,13); (206300945,13); (206143491,13); (205986057,13); (205828645,13);
(205671254,13); (205513884,13); (205356535,13); (205199207,13); (205041900,13); (204884614,13); (204727349,13); (204570105,13);
(204412883,13); (204255681,13); (204098500,13); (203941340,13); (203784201,13); (203627083,13); (203469987,13); (203312911,13);
(203155856,13); (202998822,13); (202841809,13); (202684817,13); (202527847,13); (202370897,13); (202213968,13); (202057060,13);
(201900173,13); (201743306,13); (201586461,13); (201429637,13); (201272834,13); (201116051,13); (200959290,13); (200802549,13);
(200645830,13); (200489131,13); (200332453,13); (200175797,13); (200019161,13); (199862546,13); (199705951,13); (199549378,13);
(199392826,13); (199236294,13); (199079784,13); (198923294,13); (198766825,13); (198610377,13); (198453950,13); (198297544,13);
(198141158,13); (197984794,13); (197828450,13); (197672127,13); (197515825,13); (197359544,13); (197203284,13); (197047044,13);
(196890825,13); (196734627,13); (196578450,13); (196422294,13); (196266159,13); (196110044,13); (195953950,13); (195797877,13);
(195641825,13); (195485793,13); (195329782,13); (195173792,13); (195017823,13); (194861875,13); (194705947,13); (194550040,13);
(194394154,13); (194238289,13); (194082444,13); (193926620,13); (193770817,13); (193615034,13); (193459273,13); (193303532,13);
(193147811,13); (192992112,13); (192836433,13); (192680775,13); (192525137,13); (192369521,13); (192213925,13); (192058349,13);
(191902795,13); (191747261,13); (191591747,13); (191436255,13); (191280783,13); (191125331,13); (190969901,13); (190814491,13);
(190659102,13); (190503733,13); (190348385,13); (190193058,13); (190037751,13); (189882465,13); (189727199,13); (189571955,13);
(189416730,13); (189261527,13); (189106344,13); (188951181,13); (188796040,13); (188640919,13); (188485818,13); (188330738,13);
(188175679,13); (188020640,13); (187865622,13); (187710624,13); (187555647,13); (187400690,13); (187245755,13); (187090839,13);
(186935944,13); (186781070,13); (186626216,13); (186471383,13); (186316571,13); (186161779,13); (186007007,13); (185852256,13);
(185697525,13); (185542816,13); (185388126,13); (185233457,13); (185078809,13); (184924181,13); (184769573,13); (184614986,13);
(184460420,13); (184305874,13); (184151348,13); (183996843,13); (183842359,13); (183687895,13); (183533451,13); (183379028,13);
(183224625,13); (183070243,13); (182915881,13); (182761540,13); (182607219,13); (182452919,13); (182298639,13); (182144379,13);
(181990140,13); (181835921,13); (181681723,13); (181527545,13); (181373388,13); (181219251,13); (181065134,13); (180911038,13);
(180756962,13); (180602906,13); (180448871,13); (180294857,13); (180140862,13); (179986888,13); (179832935,13); (179679001,13);
(179525089,13); (179371196,13); (179217324,13); (179063472,13); (178909641,13); (178755829,13); (178602039,13); (178448268,13);
(178294518,13); (178140788,13); (177987079,13); (177833390,13); (177679721,13); (177526072,13); (177372444,13); (177218836,13);
(177065248,13); (176911681,13); (176758134,13); (176604607,13); (176451101,13); (176297615,13); (176144149,13); (175990703,13);
(175837278,13); (175683872,13); (175530488,13); (175377123,13); (175223778,13); (175070454,13); (174917150,13); (174763867,13);
(174610603,13); (174457360,13); (174304137,13); (174150934,13); (173997752,13); (173844590,13); (173691447,13); (173538326,13);
(173385224,13); (173232142,13); (173079081,13); (172926040,13); (172773019,13); (172620018,13); (172467038,13); (172314077,13);
(172161137,13); (172008217,13); (171855317,13); (171702437,13); (171549577,13); (171396738,13); (171243919,13); (171091119,13);
(170938340,13); (170785582,13); (170632843,13); (170480124,13); (170327426,13); (170174747,13); (170022089,13); (169869451,13);
(169716833,13); (169564235,13); (169411657,13); (169259099,13); (169106561,13); (168954044,13); (168801546,13); (168649069,13);
(168496611,13); (168344174,13); (168191757,13); (168039359,13); (167886982,13); (167734625,13); (167582288,13); (167429971,13);
(167277674,13); (167125397,13); (166973140,13); (166820903,13); (166668687,13); (166516490,13); (166364313,13); (166212156,13);
(166060020,13); (165907903,13); (165755806,13); (165603729,13); (165451673,13); (165299636,13); (165147619,13); (164995622,13);
(164843645,13); (164691689,13); (164539752,13); (164387835,13); (164235938,13); (164084061,13); (163932204,13); (163780367,13);
(163628550,13); (163476752,13); (163324975,13); (163173218,13); (163021480,13); (162869763,13); (162718065,13); (162566388,13);
(162414730,13); (162263092,13); (162111475,13); (161959877,13); (161808298,13); (161656740,13); (161505202,13); (161353684,13);
(161202185,13); (161050706,13); (160899248,13); (160747809,13); (160596390,13); (160444991,13); (160293611,13); (160142252,13);
(159990912,13); (159839593,13); (159688293,13); (159537013,13); (159385753,13); (159234512,13); (159083292,13); (158932091,13);
(158780910,13); (158629749,13); (158478608,13); (158327486,13); (158176385,13); (158025303,13); (157874241,13); (157723198,13);
(157572176,13); (157421173,13); (157270190,13); (157119227,13); (156968284,13); (156817360,13); (156666457,13); (156515573,13);
(156364708,13); (156213864,13); (156063039,13); (155912234,13); (155761449,13); (155610683,13); (155459937,13); (155309211,13);
(155158505,13); (155007818,13); (154857151,13); (154706504,13); (154555877,13); (154405269,13); (154254681,13); (154104113,13);
(153953564,13); (153803035,13); (153652526,13); (153502036,13); (153351566,13); (153201116,13); (153050685,13); (152900275,13);
(152749883,13); (152599512,13); (152449160,13); (152298828,13); (152148515,13); (151998222,13); (151847949,13); (151697695,13);
(151547461,13); (151397247,13); (151247052,13); (151096877,13); (150946722,13); (150796586,13); (150646469,13); (150496373,13);
(150346296,13); (150196238,13); (150046200,13); (149896182,13); (149746183,13); (149596204,13); (149446245,13); (149296305,13);
(149146384,13); (148996484,13); (148846602,13); (148696741,13); (148546899,13); (148397076,13); (148247273,13); (148097490,13);
(147947726,13); (147797981,13); (147648257,13); (147498551,13); (147348865,13); (147199199,13); (147049553,13); (146899925,13);
(146750318,13); (146600729,13); (146451161,13); (146301612,13); (146152082,13); (146002572,13); (145853081,13); (145703610,13);
(145554158,13); (145404726,13); (145255313,13); (145105920,13); (144956546,13); (144807192,13); (144657857,13); (144508541,13);
(144359245,13); (144209969,13); (144060712,13); (143911474,13); (143762256,13); (143613057,13); (143463877,13); (143314718,13);
(143165577,13); (143016456,13); (142867354,13); (142718272,13); (142569209,13); (142420166,13); (142271142,13); (142122137,13);
(141973152,13); (141824186,13); (141675239,13); (141526312,13); (141377404,13); (141228516,13); (141079647,13); (140930797,13);
(140781967,13); (140633156,13); (140484365,13); (140335592,13); (140186839,13); (140038106,13); (139889392,13); (139740697,13);
(139592021,13); (139443365,13); (139294728,13); (139146111,13); (138997512,13); (138848933,13); (138700374,13); (138551834,13);
(138403313,13); (138254811,13); (138106328,13); (137957865,13); (137809421,13); (137660997,13); (137512592,13); (137364206,13);
(137215839,13); (137067491,13); (136919163,13); (136770854,13); (136622564,13); (136474294,13); (136326043,13); (136177811,13);
(136029598,13); (135881405,13); (135733230,13); (135585075,13); (135436940,13); (135288823,13); (135140726,13); (134992648,13);
(134844589,13); (134696549,13); (134548528,13); (134400527,13); (134252545,13); (134104582,13); (133956638,13); (133808714,13);
(133660808,13); (133512922,13); (133365055,13); (133217207,13); (133069379,13); (132921569,13); (132773779,13); (132626008,13);
(132478256,13); (132330523,13); (132182809,13); (132035114,13); (131887439,13); (131739782,13); (131592145,13); (131444527,13);
(131296928,13); (131149348,13); (131001788,13); (130854246,13); (130706723,13); (130559220,13); (130411736,13); (130264270,13);
(130116824,13); (129969397,13); (129821989,13); (129674600,13); (129527231,13); (129379880,13); (129232548,13); (129085236,13);
(128937942,13); (128790668,13); (128643412,13); (128496176,13); (128348959,13); (128201760,13); (128054581,13); (127907421,13);
(127760280,13); (127613157,13); (127466054,13); (127318970,13); (127171905,13); (127024859,13); (126877832,13); (126730824,13);
(126583835,13); (126436865,13); (126289914,13); (126142982,13); (125996069,13); (125849175,13); (125702300,13); (125555443,13);
(125408606,13); (125261788,13); (125114989,13); (124968209,13); (124821447,13); (124674705,13); (124527982,13); (124381277,13);
(124234592,13); (124087925,13); (123941278,13); (123794649,13); (123648039,13); (123501448,13); (123354876,13); (123208323,13);
(123061789,13); (122915274,13); (122768778,13); (122622301,13); (122475842,13); (122329403,13); (122182982,13); (122036580,13);
(121890197,13); (121743833,13); (121597488,13); (121451162,13); (121304854,13); (121158566,13); (121012296,13); (120866046,13);
(120719814,13); (120573601,13); (120427406,13); (120281231,13); (120135074,13); (119988937,13); (119842818,13); (119696718,13);
(119550637,13); (119404574,13); (119258531,13); (119112506,13); (118966500,13); (118820513,13); (118674544,13); (118528595,13);
(118382664,13); (118236752,13); (118090859,13); (117944985,13); (117799129,13); (117653292,13); (117507474,13); (117361675,13);
(117215895,13); (117070133,13); (116924390,13); (116778666,13); (116632961,13); (116487274,13); (116341606,13); (116195957,13);
(116050326,13); (115904715,13); (115759122,13); (115613547,13); (115467992,13); (115322455,13); (115176937,13); (115031438,13);
(114885957,13); (114740495,13); (114595052,13); (114449627,13); (114304221,13); (114158834,13); (114013466,13); (113868116,13);
(113722785,13); (113577473,13); (113432179,13); (113286904,13); (113141647,13); (112996410,13); (112851191,13); (112705990,13);
(112560808,13); (112415645,13); (112270501,13); (112125375,13); (111980268,13); (111835179,13); (111690109,13); (111545058,13);
(111400025,13); (111255011,13); (111110016,13); (110965039,13); (110820081,13); (110675141,13); (110530220,13); (110385318,13);
(110240434,13); (110095569,13); (109950722,13); (109805894,13); (109661085,13); (109516294,13); (109371522,13); (109226768,13);
(109082033,13); (108937316,13); (108792618,13); (108647939,13); (108503278,13); (108358636,13); (108214012,13); (108069406,13);
(107924820,13); (107780252,13); (107635702,13); (107491171,13); (107346658,13); (107202164,13); (107057688,13); (106913231,13);
(106768793,13); (106624373,13); (106479971,13); (106335588,13); (106191224,13); (106046878,13); (105902550,13); (105758241,13);
(105613950,13); (105469678,13); (105325425,13); (105181189,13); (105036973,13); (104892775,13); (104748595,13); (104604433,13);
(104460291,13); (104316166,13); (104172060,13); (104027973,13); (103883904,13); (103739853,13); (103595821,13); (103451807,13);
(103307812,13); (103163835,13); (103019876,13); (102875936,13); (102732014,13); (102588111,13); (102444226,13); (102300360,13);
(102156512,13); (102012682,13); (101868871,13); (101725078,13); (101581303,13); (101437547,13); (101293809,13); (101150090,13);
(101006389,13); (100862706,13); (100719042,13); (100575396,13); (100431768,13); (100288159,13); (100144568,13); (100000996,13);
(99857441,13); (99713906,13); (99570388,13); (99426889,13); (99283408,13); (99139945,13); (98996501,13); (98853075,13);
(98709668,13); (98566278,13); (98422907,13); (98279555,13); (98136220,13); (97992904,13); (97849606,13); (97706327,13);
(97563066,13); (97419823,13); (97276598,13); (97133392,13); (96990204,13); (96847034,13); (96703882,13); (96560749,13);
(96417634,13); (96274537,13); (96131458,13); (95988398,13); (95845356,13); (95702332,13); (95559326,13); (95416339,13);
(95273370,13); (95130419,13); (94987486,13); (94844572,13); (94701676,13); (94558797,13); (94415938,13); (94273096,13);
(94130273,13); (93987467,13); (93844680,13); (93701911,13); (93559161,13); (93416428,13); (93273714,13); (93131018,13);
(92988340,13); (92845680,13); (92703038,13); (92560415,13); (92417810,13); (92275223,13); (92132654,13); (91990103,13);
(91847570,13); (91705055,13); (91562559,13); (91420081,13); (91277621,13); (91135179,13); (90992755,13); (90850349,13);
(90707961,13); (90565592,13); (90423240,13); (90280907,13); (90138592,13); (89996295,13); (89854016,13); (89711755,13);
(89569512,13); (89427287,13); (89285080,13); (89142892,13); (89000721,13); (88858569,13); (88716434,13); (88574318,13);
(88432220,13); (88290140,13); (88148078,13); (88006033,13); (87864007,13); (87721999,13); (87580010,13); (87438038,13);
(87296084,13); (87154148,13); (87012230,13); (86870330,13); (86728449,13); (86586585,13); (86444739,13); (86302911,13);
(86161102,13); (86019310,13); (85877536,13); (85735781,13); (85594043,13); (85452323,13); (85310621,13); (85168938,13);
(85027272,13); (84885624,13); (84743994,13); (84602382,13); (84460788,13); (84319213,13); (84177655,13); (84036115,13);
(83894593,13); (83753088,13); (83611602,13); (83470134,13); (83328684,13); (83187251,13); (83045837,13); (82904441,13);
(82763062,13); (82621701,13); (82480359,13); (82339034,13); (82197727,13); (82056438,13); (81915167,13); (81773914,13);
(81632678,13); (81491461,13); (81350262,13); (81209080,13); (81067916,13); (80926770,13); (80785642,13); (80644532,13);
(80503440,13); (80362366,13); (80221309,13); (80080271,13); (79939250,13); (79798247,13); (79657262,13); (79516295,13);
(79375345,13); (79234414,13); (79093500,13); (78952604,13); (78811726,13); (78670866,13); (78530024,13); (78389199,13);
(78248393,13); (78107604,13); (77966833,13); (77826079,13); (77685344,13); (77544626,13); (77403926,13); (77263244,13);
(77122580,13); (76981933,13); (76841304,13); (76700693,13); (76560100,13); (76419525,13); (76278967,13); (76138427,13);
(75997905,13); (75857401,13); (75716914,13); (75576445,13); (75435994,13); (75295561,13); (75155145,13); (75014747,13);
(74874367,13); (74734005,13); (74593660,13); (74453333,13); (74313024,13); (74172732,13); (74032459,13); (73892203,13);
(73751964,13); (73611744,13); (73471541,13); (73331355,13); (73191188,13); (73051038,13); (72910906,13); (72770791,13);
(72630694,13); (72490615,13); (72350554,13); (72210510,13); (72070484,13); (71930475,13); (71790485,13); (71650511,13);
(71510556,13); (71370618,13); (71230698,13); (71090795,13); (70950910,13); (70811043,13); (70671194,13); (70531362,13);
(70391547,13); (70251750,13); (70111971,13); (69972210,13); (69832466,13); (69692740,13); (69553031,13); (69413340,13);
(69273667,13); (69134011,13); (68994372,13); (68854752,13); (68715149,13); (68575563,13); (68435995,13); (68296445,13);
(68156912,13); (68017397,13); (67877899,13); (67738419,13); (67598957,13); (67459512,13); (67320085,13); (67180675,13);
(67041283,13); (66901908,13); (66762551,13); (66623211,13); (66483889,13); (66344584,13); (66205297,13); (66066028,13);
(65926776,13); (65787541,13); (65648324,13); (65509125,13); (65369943,13); (65230779,13); (65091632,13); (64952502,13);
(64813390,13); (64674296,13); (64535219,13); (64396159,13); (64257117,13); (64118093,13); (63979086,13); (63840096,13);
(63701124,13); (63562170,13); (63423233,13); (63284313,13); (63145411,13); (63006526,13); (62867658,13); (62728809,13);
(62589976,13); (62451161,13); (62312364,13); (62173583,13); (62034821,13); (61896076,13); (61757348,13); (61618637,13);
(61479944,13); (61341269,13); (61202610,13); (61063970,13); (60925346,13); (60786740,13); (60648152,13); (60509581,13);
(60371027,13); (60232490,13); (60093971,13); (59955470,13); (59816985,13); (59678519,13); (59540069,13); (59401637,13);
(59263222,13); (59124825,13); (58986445,13); (58848082,13); (58709737,13); (58571409,13); (58433098,13); (58294805,13);
(58156529,13); (58018270,13); (57880029,13); (57741805,13); (57603598,13); (57465409,13); (57327237,13); (57189082,13);
(57050945,13); (56912824,13); (56774722,13); (56636636,13); (56498568,13); (56360517,13); (56222484,13); (56084467,13);
(55946468,13); (55808487,13); (55670522,13); (55532575,13); (55394645,13); (55256732,13); (55118837,13); (54980959,13);
(54843098,13); (54705255,13); (54567428,13); (54429619,13); (54291827,13); (54154053,13); (54016295,13); (53878555,13);
(53740833,13); (53603127,13); (53465439,13); (53327767,13); (53190113,13); (53052477,13); (52914857,13); (52777255,13);
(52639670,13); (52502102,13); (52364551,13); (52227018,13); (52089501,13); (51952002,13); (51814520,13); (51677056,13);
(51539608,13); (51402178,13); (51264765,13); (51127368,13); (50989990,13); (50852628,13); (50715283,13); (50577956,13);
(50440646,13); (50303353,13); (50166077,13); (50028818,13); (49891577,13); (49754352,13); (49617145,13); (49479955,13);
(49342782,13); (49205626,13); (49068487,13); (48931365,13); (48794261,13); (48657173,13); (48520103,13); (48383050,13);
(48246014,13); (48108995,13); (47971993,13); (47835008,13); (47698040,13); (47561089,13); (47424156,13); (47287239,13);
(47150340,13); (47013458,13); (46876593,13); (46739744,13); (46602913,13); (46466099,13); (46329302,13); (46192522,13);
(46055760,13); (45919014,13); (45782285,13); (45645573,13); (45508879,13); (45372201,13); (45235540,13); (45098897,13);
(44962270,13); (44825661,13); (44689068,13); (44552493,13); (44415934,13); (44279393,13); (44142869,13); (44006361,13);
(43869871,13); (43733397,13); (43596941,13); (43460502,13); (43324079,13); (43187674,13); (43051285,13); (42914914,13);
(42778559,13); (42642222,13); (42505901,13); (42369598,13); (42233311,13); (42097041,13); (41960789,13); (41824553,13);
(41688334,13); (41552132,13); (41415947,13); (41279779,13); (41143628,13); (41007494,13); (40871377,13); (40735277,13);
(40599194,13); (40463128,13); (40327078,13); (40191046,13); (40055030,13); (39919031,13); (39783050,13); (39647085,13);
(39511137,13); (39375206,13); (39239292,13); (39103394,13); (38967514,13); (38831650,13); (38695804,13); (38559974,13);
(38424161,13); (38288365,13); (38152586,13); (38016824,13); (37881079,13); (37745350,13); (37609638,13); (37473944,13);
(37338266,13); (37202605,13); (37066960,13); (36931333,13); (36795722,13); (36660129,13); (36524552,13); (36388992,13);
(36253448,13); (36117922,13); (35982412,13); (35846920,13); (35711444,13); (35575984,13); (35440542,13); (35305117,13);
(35169708,13); (35034316,13); (34898941,13); (34763582,13); (34628241,13); (34492916,13); (34357608,13); (34222317,13);
(34087043,13); (33951785,13); (33816544,13); (33681320,13); (33546113,13); (33410922,13); (33275748,13); (33140591,13);
(33005451,13); (32870327,13); (32735220,13); (32600130,13); (32465057,13); (32330000,13); (32194960,13); (32059937,13);
(31924931,13); (31789941,13); (31654968,13); (31520012,13); (31385072,13); (31250150,13); (31115243,13); (30980354,13);
(30845481,13); (30710625,13); (30575786,13); (30440963,13); (30306157,13); (30171368,13); (30036596,13); (29901840,13);
(29767101,13); (29632378,13); (29497672,13); (29362983,13); (29228310,13); (29093655,13); (28959015,13); (28824393,13);
(28689787,13); (28555198,13); (28420625,13); (28286069,13); (28151530,13); (28017007,13); (27882501,13); (27748012,13);
(27613539,13); (27479083,13); (27344643,13); (27210220,13); (27075814,13); (26941424,13); (26807051,13); (26672695,13);
(26538355,13); (26404032,13); (26269725,13); (26135435,13); (26001162,13); (25866905,13); (25732664,13); (25598441,13);
(25464233,13); (25330043,13); (25195869,13); (25061711,13); (24927571,13); (24793446,13); (24659339,13); (24525247,13);
(24391173,13); (24257115,13); (24123073,13); (23989048,13); (23855040,13); (23721048,13); (23587073,13); (23453114,13);
(23319171,13); (23185246,13); (23051336,13); (22917444,13); (22783567,13); (22649708,13); (22515865,13); (22382038,13);
(22248228,13); (22114434,13); (21980657,13); (21846896,13); (21713152,13); (21579424,13); (21445713,13); (21312018,13);
(21178340,13); (21044678,13); (20911033,13); (20777404,13); (20643792,13); (20510196,13); (20376617,13); (20243054,13);
(20109507,13); (19975977,13); (19842464,13); (19708967,13); (19575486,13); (19442022,13); (19308574,13); (19175142,13);
(19041727,13); (18908329,13); (18774947,13); (18641581,13); (18508232,13); (18374899,13); (18241583,13); (18108283,13);
(17974999,13); (17841732,13); (17708481,13); (17575247,13); (17442029,13); (17308827,13); (17175642,13); (17042473,13);
(16909321,13); (16776185,13); (16643065,13); (16509962,13); (16376875,13); (16243804,13); (16110750,13); (15977712,13);
(15844690,13); (15711685,13); (15578697,13); (15445724,13); (15312768,13); (15179828,13); (15046905,13); (14913998,13);
(14781107,13); (14648233,13); (14515375,13); (14382533,13); (14249708,13); (14116899,13); (13984106,13); (13851329,13);
(13718569,13); (13585825,13); (13453098,13); (13320387,13); (13187692,13); (13055013,13); (12922351,13); (12789705,13);
(12657075,13); (12524462,13); (12391864,13); (12259283,13); (12126719,13); (11994171,13); (11861638,13); (11729123,13);
(11596623,13); (11464140,13); (11331673,13); (11199222,13); (11066787,13); (10934369,13); (10801967,13); (10669581,13);
(10537212,13); (10404858,13); (10272521,13); (10140200,13); (10007896,13); (9875607,13); (9743335,13); (9611079,13);
(9478840,13); (9346616,13); (9214409,13); (9082218,13); (8950043,13); (8817884,13); (8685741,13); (8553615,13);
(8421505,13); (8289411,13); (8157333,13); (8025272,13); (7893226,13); (7761197,13); (7629184,13); (7497187,13);
(7365207,13); (7233242,13); (7101294,13); (6969361,13); (6837445,13); (6705545,13); (6573662,13); (6441794,13);
(6309943,13); (6178107,13); (6046288,13); (5914485,13); (5782698,13); (5650927,13); (5519173,13); (5387434,13);
(5255712,13); (5124006,13); (4992315,13); (4860641,13); (4728983,13); (4597341,13); (4465716,13); (4334106,13);
(4202513,13); (4070935,13); (3939374,13); (3807828,13); (3676299,13); (3544786,13); (3413289,13); (3281808,13);
(3150343,13); (3018894,13); (2887462,13); (2756045,13); (2624644,13); (2493260,13); (2361891,13); (2230539,13);
(2099203,13); (1967882,13); (1836578,13); (1705290,13); (1574017,13); (1442761,13); (1311521,13); (1180297,13);
(1049089,13); (917897,13); (786721,13); (655561,13); (524417,13); (393289,13); (262177,13); (131081,13)].
