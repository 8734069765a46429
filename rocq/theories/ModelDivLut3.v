(** Transcription of entries 49152..65535 of RECIPROCAL, /repo/src/probability/div_lut.rs:19-4116
    (generated by tools/gen_div_lut.py). *)
From Verif Require Import Prelude.

(** entries 49152..51199 *)
Definition RECIPROCAL_24 : list (Z * Z) := [
(715827883,15); (715769630,15); (715711379,15); (715653131,15); (715594885,15); (715536642,15); (715478400,15); (715420162,15);
(715361925,15); (715303691,15); (715245459,15); (715187230,15); (715129003,15); (715070779,15); (715012556,15); (714954336,15);
(714896119,15); (714837904,15); (714779691,15); (714721481,15); (714663273,15); (714605067,15); (714546864,15); (714488663,15);
(714430464,15); (714372268,15); (714314074,15); (714255883,15); (714197694,15); (714139507,15); (714081323,15); (714023141,15);
(713964961,15); (713906784,15); (713848609,15); (713790436,15); (713732266,15); (713674098,15); (713615933,15); (713557770,15);
(713499609,15); (713441451,15); (713383295,15); (713325141,15); (713266990,15); (713208841,15); (713150694,15); (713092550,15);
(713034409,15); (712976269,15); (712918132,15); (712859997,15); (712801865,15); (712743735,15); (712685607,15); (712627482,15);
(712569359,15); (712511239,15); (712453121,15); (712395005,15); (712336891,15); (712278780,15); (712220672,15); (712162565,15);
(712104461,15); (712046360,15); (711988260,15); (711930163,15); (711872069,15); (711813977,15); (711755887,15); (711697799,15);
(711639714,15); (711581631,15); (711523551,15); (711465473,15); (711407397,15); (711349324,15); (711291253,15); (711233184,15);
(711175118,15); (711117054,15); (711058993,15); (711000934,15); (710942877,15); (710884822,15); (710826770,15); (710768721,15);
(710710673,15); (710652628,15); (710594586,15); (710536545,15); (710478507,15); (710420472,15); (710362439,15); (710304408,15);
(710246379,15); (710188353,15); (710130329,15); (710072308,15); (710014289,15); (709956272,15); (709898258,15); (709840246,15);
(709782236,15); (709724229,15); (709666224,15); (709608221,15); (709550221,15); (709492223,15); (709434227,15); (709376234,15);
(709318243,15); (709260255,15); (709202269,15); (709144285,15); (709086304,15); (709028325,15); (708970348,15); (708912374,15);
(708854402,15); (708796432,15); (708738465,15); (708680500,15); (708622537,15); (708564577,15); (708506619,15); (708448664,15);
(708390710,15); (708332760,15); (708274811,15); (708216865,15); (708158921,15); (708100980,15); (708043041,15); (707985104,15);
(707927170,15); (707869238,15); (707811308,15); (707753381,15); (707695456,15); (707637533,15); (707579613,15); (707521695,15);
(707463779,15); (707405866,15); (707347955,15); (707290047,15); (707232141,15); (707174237,15); (707116335,15); (707058436,15);
(707000539,15); (706942645,15); (706884753,15); (706826863,15); (706768976,15); (706711091,15); (706653208,15); (706595328,15);
(706537450,15); (706479574,15); (706421701,15); (706363830,15); (706305961,15); (706248095,15); (706190231,15); (706132370,15);
(706074511,15); (706016654,15); (705958799,15); (705900947,15); (705843097,15); (705785250,15); (705727405,15); (705669562,15);
(705611721,15); (705553883,15); (705496048,15); (705438214,15); (705380383,15); (705322554,15); (705264728,15); (705206904,15);
(705149082,15); (705091263,15); (705033446,15); (704975631,15); (704917819,15); (704860009,15); (704802201,15); (704744396,15);
(704686593,15); (704628793,15); (704570994,15); (704513198,15); (704455405,15); (704397614,15); (704339825,15); (704282038,15);
(704224254,15); (704166472,15); (704108693,15); (704050915,15); (703993141,15); (703935368,15); (703877598,15); (703819830,15);
(703762065,15); (703704302,15); (703646541,15); (703588782,15); (703531026,15); (703473272,15); (703415521,15); (703357772,15);
(703300025,15); (703242281,15); (703184539,15); (703126799,15); (703069062,15); (703011327,15); (702953594,15); (702895863,15);
(702838135,15); (702780410,15); (702722686,15); (702664965,15); (702607247,15); (702549530,15); (702491816,15); (702434105,15);
(702376395,15); (702318688,15); (702260984,15); (702203281,15); (702145581,15); (702087884,15); (702030188,15); (701972495,15);
(701914805,15); (701857116,15); (701799431,15); (701741747,15); (701684066,15); (701626387,15); (701568710,15); (701511036,15);
(701453364,15); (701395694,15); (701338027,15); (701280362,15); (701222699,15); (701165039,15); (701107381,15); (701049725,15);
(700992072,15); (700934421,15); (700876773,15); (700819126,15); (700761482,15); (700703841,15); (700646201,15); (700588564,15);
(700530930,15); (700473298,15); (700415668,15); (700358040,15); (700300415,15); (700242792,15); (700185171,15); (700127553,15);
(700069937,15); (700012323,15); (699954712,15); (699897103,15); (699839496,15); (699781892,15); (699724290,15); (699666690,15);
(699609093,15); (699551498,15); (699493906,15); (699436315,15); (699378727,15); (699321142,15); (699263558,15); (699205977,15);
(699148399,15); (699090822,15); (699033248,15); (698975676,15); (698918107,15); (698860540,15); (698802975,15); (698745413,15);
(698687853,15); (698630295,15); (698572740,15); (698515187,15); (698457636,15); (698400088,15); (698342542,15); (698284998,15);
(698227456,15); (698169917,15); (698112381,15); (698054846,15); (697997314,15); (697939784,15); (697882257,15); (697824732,15);
(697767209,15); (697709688,15); (697652170,15); (697594654,15); (697537141,15); (697479630,15); (697422121,15); (697364614,15);
(697307110,15); (697249608,15); (697192109,15); (697134611,15); (697077116,15); (697019624,15); (696962134,15); (696904646,15);
(696847160,15); (696789677,15); (696732196,15); (696674717,15); (696617241,15); (696559767,15); (696502295,15); (696444826,15);
(696387359,15); (696329894,15); (696272432,15); (696214972,15); (696157514,15); (696100058,15); (696042605,15); (695985155,15);
(695927706,15); (695870260,15); (695812816,15); (695755375,15); (695697935,15); (695640499,15); (695583064,15); (695525632,15);
(695468202,15); (695410774,15); (695353349,15); (695295926,15); (695238506,15); (695181087,15); (695123671,15); (695066258,15);
(695008846,15); (694951437,15); (694894031,15); (694836626,15); (694779224,15); (694721824,15); (694664427,15); (694607032,15);
(694549639,15); (694492249,15); (694434861,15); (694377475,15); (694320091,15); (694262710,15); (694205331,15); (694147955,15);
(694090580,15); (694033208,15); (693975839,15); (693918471,15); (693861107,15); (693803744,15); (693746383,15); (693689025,15);
(693631670,15); (693574316,15); (693516965,15); (693459617,15); (693402270,15); (693344926,15); (693287584,15); (693230245,15);
(693172907,15); (693115573,15); (693058240,15); (693000910,15); (692943582,15); (692886256,15); (692828933,15); (692771612,15);
(692714293,15); (692656977,15); (692599663,15); (692542351,15); (692485042,15); (692427734,15); (692370430,15); (692313127,15);
(692255827,15); (692198529,15); (692141234,15); (692083940,15); (692026649,15); (691969361,15); (691912074,15); (691854790,15);
(691797509,15); (691740229,15); (691682952,15); (691625678,15); (691568405,15); (691511135,15); (691453867,15); (691396602,15);
(691339339,15); (691282078,15); (691224819,15); (691167563,15); (691110309,15); (691053057,15); (690995808,15); (690938561,15);
(690881316,15); (690824074,15); (690766834,15); (690709596,15); (690652360,15); (690595127,15); (690537896,15); (690480668,15);
(690423441,15); (690366218,15); (690308996,15); (690251777,15); (690194560,15); (690137345,15); (690080132,15); (690022922,15);
(689965715,15); (689908509,15); (689851306,15); (689794105,15); (689736906,15); (689679710,15); (689622516,15); (689565325,15);
(689508135,15); (689450948,15); (689393763,15); (689336581,15); (689279401,15); (689222223,15); (689165048,15); (689107874,15);
(689050703,15); (688993535,15); (688936369,15); (688879205,15); (688822043,15); (688764883,15); (688707726,15); (688650572,15);
(688593419,15); (688536269,15); (688479121,15); (688421976,15); (688364832,15); (688307691,15); (688250553,15); (688193416,15);
(688136282,15); (688079151,15); (688022021,15); (687964894,15); (687907769,15); (687850647,15); (687793526,15); (687736408,15);
(687679293,15); (687622179,15); (687565068,15); (687507960,15); (687450853,15); (687393749,15); (687336647,15); (687279548,15);
(687222451,15); (687165356,15); (687108263,15); (687051173,15); (686994085,15); (686936999,15); (686879915,15); (686822834,15);
(686765755,15); (686708679,15); (686651605,15); (686594533,15); (686537463,15); (686480396,15); (686423331,15); (686366268,15);
(686309208,15); (686252149,15); (686195094,15); (686138040,15); (686080989,15); (686023940,15); (685966893,15); (685909849,15);
(685852807,15); (685795767,15); (685738730,15); (685681694,15); (685624661,15); (685567631,15); (685510603,15); (685453577,15);
(685396553,15); (685339531,15); (685282512,15); (685225496,15); (685168481,15); (685111469,15); (685054459,15); (684997451,15);
(684940446,15); (684883443,15); (684826442,15); (684769444,15); (684712448,15); (684655454,15); (684598462,15); (684541473,15);
(684484486,15); (684427501,15); (684370519,15); (684313539,15); (684256561,15); (684199585,15); (684142612,15); (684085641,15);
(684028673,15); (683971706,15); (683914742,15); (683857780,15); (683800821,15); (683743864,15); (683686909,15); (683629956,15);
(683573006,15); (683516058,15); (683459112,15); (683402169,15); (683345228,15); (683288289,15); (683231352,15); (683174418,15);
(683117486,15); (683060556,15); (683003629,15); (682946704,15); (682889781,15); (682832860,15); (682775942,15); (682719026,15);
(682662113,15); (682605201,15); (682548292,15); (682491385,15); (682434481,15); (682377579,15); (682320679,15); (682263781,15);
(682206886,15); (682149993,15); (682093102,15); (682036213,15); (681979327,15); (681922443,15); (681865562,15); (681808682,15);
(681751805,15); (681694930,15); (681638058,15); (681581188,15); (681524320,15); (681467454,15); (681410591,15); (681353730,15);
(681296871,15); (681240014,15); (681183160,15); (681126308,15); (681069459,15); (681012611,15); (680955766,15); (680898924,15);
(680842083,15); (680785245,15); (680728409,15); (680671575,15); (680614744,15); (680557915,15); (680501088,15); (680444264,15);
(680387441,15); (680330622,15); (680273804,15); (680216989,15); (680160175,15); (680103365,15); (680046556,15); (679989750,15);
(679932946,15); (679876144,15); (679819345,15); (679762548,15); (679705753,15); (679648960,15); (679592170,15); (679535382,15);
(679478597,15); (679421813,15); (679365032,15); (679308253,15); (679251477,15); (679194702,15); (679137930,15); (679081161,15);
(679024393,15); (678967628,15); (678910865,15); (678854104,15); (678797346,15); (678740590,15); (678683836,15); (678627085,15);
(678570336,15); (678513589,15); (678456844,15); (678400102,15); (678343361,15); (678286624,15); (678229888,15); (678173155,15);
(678116424,15); (678059695,15); (678002969,15); (677946245,15); (677889523,15); (677832803,15); (677776086,15); (677719371,15);
(677662658,15); (677605948,15); (677549239,15); (677492533,15); (677435830,15); (677379128,15); (677322429,15); (677265732,15);
(677209038,15); (677152346,15); (677095656,15); (677038968,15); (676982282,15); (676925599,15); (676868918,15); (676812240,15);
(676755563,15); (676698889,15); (676642217,15); (676585548,15); (676528881,15); (676472216,15); (676415553,15); (676358893,15);
(676302234,15); (676245579,15); (676188925,15); (676132274,15); (676075625,15); (676018978,15); (675962333,15); (675905691,15);
(675849051,15); (675792413,15); (675735778,15); (675679145,15); (675622514,15); (675565885,15); (675509259,15); (675452635,15);
(675396013,15); (675339394,15); (675282776,15); (675226161,15); (675169549,15); (675112938,15); (675056330,15); (674999724,15);
(674943120,15); (674886519,15); (674829920,15); (674773323,15); (674716729,15); (674660136,15); (674603546,15); (674546959,15);
(674490373,15); (674433790,15); (674377209,15); (674320630,15); (674264054,15); (674207480,15); (674150908,15); (674094338,15);
(674037771,15); (673981206,15); (673924643,15); (673868083,15); (673811524,15); (673754968,15); (673698415,15); (673641863,15);
(673585314,15); (673528767,15); (673472223,15); (673415680,15); (673359140,15); (673302602,15); (673246067,15); (673189533,15);
(673133002,15); (673076473,15); (673019947,15); (672963423,15); (672906901,15); (672850381,15); (672793864,15); (672737348,15);
(672680835,15); (672624325,15); (672567816,15); (672511310,15); (672454806,15); (672398305,15); (672341805,15); (672285308,15);
(672228814,15); (672172321,15); (672115831,15); (672059343,15); (672002857,15); (671946373,15); (671889892,15); (671833413,15);
(671776937,15); (671720462,15); (671663990,15); (671607520,15); (671551052,15); (671494587,15); (671438124,15); (671381663,15);
(671325204,15); (671268748,15); (671212294,15); (671155842,15); (671099393,15); (671042945,15); (670986500,15); (670930057,15);
(670873617,15); (670817179,15); (670760743,15); (670704309,15); (670647877,15); (670591448,15); (670535021,15); (670478597,15);
(670422174,15); (670365754,15); (670309336,15); (670252920,15); (670196507,15); (670140096,15); (670083687,15); (670027280,15);
(669970876,15); (669914474,15); (669858074,15); (669801676,15); (669745281,15); (669688888,15); (669632497,15); (669576109,15);
(669519722,15); (669463338,15); (669406956,15); (669350577,15); (669294200,15); (669237825,15); (669181452,15); (669125081,15);
(669068713,15); (669012347,15); (668955983,15); (668899622,15); (668843263,15); (668786906,15); (668730551,15); (668674199,15);
(668617848,15); (668561500,15); (668505155,15); (668448811,15); (668392470,15); (668336131,15); (668279794,15); (668223460,15);
(668167128,15); (668110798,15); (668054470,15); (667998145,15); (667941822,15); (667885501,15); (667829182,15); (667772866,15);
(667716552,15); (667660240,15); (667603930,15); (667547623,15); (667491318,15); (667435015,15); (667378714,15); (667322416,15);
(667266120,15); (667209826,15); (667153534,15); (667097245,15); (667040958,15); (666984673,15); (666928390,15); (666872110,15);
(666815832,15); (666759556,15); (666703282,15); (666647011,15); (666590742,15); (666534475,15); (666478210,15); (666421948,15);
(666365688,15); (666309430,15); (666253174,15); (666196921,15); (666140670,15); (666084421,15); (666028174,15); (665971930,15);
(665915688,15); (665859448,15); (665803210,15); (665746975,15); (665690742,15); (665634511,15); (665578282,15); (665522056,15);
(665465832,15); (665409610,15); (665353390,15); (665297173,15); (665240958,15); (665184745,15); (665128534,15); (665072326,15);
(665016120,15); (664959916,15); (664903714,15); (664847515,15); (664791318,15); (664735123,15); (664678930,15); (664622740,15);
(664566551,15); (664510365,15); (664454182,15); (664398000,15); (664341821,15); (664285644,15); (664229469,15); (664173297,15);
(664117127,15); (664060959,15); (664004793,15); (663948630,15); (663892468,15); (663836309,15); (663780152,15); (663723998,15);
(663667846,15); (663611696,15); (663555548,15); (663499402,15); (663443259,15); (663387118,15); (663330979,15); (663274843,15);
(663218708,15); (663162576,15); (663106446,15); (663050319,15); (662994193,15); (662938070,15); (662881949,15); (662825831,15);
(662769714,15); (662713600,15); (662657488,15); (662601378,15); (662545271,15); (662489166,15); (662433063,15); (662376962,15);
(662320864,15); (662264767,15); (662208673,15); (662152582,15); (662096492,15); (662040405,15); (661984320,15); (661928237,15);
(661872156,15); (661816078,15); (661760002,15); (661703928,15); (661647857,15); (661591787,15); (661535720,15); (661479655,15);
(661423593,15); (661367532,15); (661311474,15); (661255418,15); (661199364,15); (661143313,15); (661087264,15); (661031217,15);
(660975172,15); (660919129,15); (660863089,15); (660807051,15); (660751015,15); (660694982,15); (660638950,15); (660582921,15);
(660526894,15); (660470870,15); (660414847,15); (660358827,15); (660302809,15); (660246794,15); (660190780,15); (660134769,15);
(660078760,15); (660022753,15); (659966749,15); (659910746,15); (659854746,15); (659798748,15); (659742753,15); (659686760,15);
(659630768,15); (659574780,15); (659518793,15); (659462808,15); (659406826,15); (659350846,15); (659294869,15); (659238893,15);
(659182920,15); (659126949,15); (659070980,15); (659015014,15); (658959049,15); (658903087,15); (658847127,15); (658791170,15);
(658735214,15); (658679261,15); (658623310,15); (658567361,15); (658511415,15); (658455471,15); (658399529,15); (658343589,15);
(658287651,15); (658231716,15); (658175783,15); (658119852,15); (658063924,15); (658007997,15); (657952073,15); (657896151,15);
(657840231,15); (657784314,15); (657728399,15); (657672486,15); (657616575,15); (657560666,15); (657504760,15); (657448856,15);
(657392954,15); (657337054,15); (657281157,15); (657225262,15); (657169369,15); (657113478,15); (657057590,15); (657001703,15);
(656945819,15); (656889937,15); (656834058,15); (656778180,15); (656722305,15); (656666432,15); (656610562,15); (656554693,15);
(656498827,15); (656442963,15); (656387101,15); (656331242,15); (656275384,15); (656219529,15); (656163676,15); (656107826,15);
(656051977,15); (655996131,15); (655940287,15); (655884445,15); (655828606,15); (655772768,15); (655716933,15); (655661100,15);
(655605270,15); (655549441,15); (655493615,15); (655437791,15); (655381969,15); (655326150,15); (655270333,15); (655214517,15);
(655158705,15); (655102894,15); (655047086,15); (654991279,15); (654935475,15); (654879674,15); (654823874,15); (654768077,15);
(654712282,15); (654656489,15); (654600698,15); (654544910,15); (654489124,15); (654433340,15); (654377558,15); (654321779,15);
(654266001,15); (654210226,15); (654154453,15); (654098683,15); (654042914,15); (653987148,15); (653931384,15); (653875622,15);
(653819863,15); (653764105,15); (653708350,15); (653652597,15); (653596847,15); (653541098,15); (653485352,15); (653429608,15);
(653373866,15); (653318127,15); (653262389,15); (653206654,15); (653150921,15); (653095191,15); (653039462,15); (652983736,15);
(652928012,15); (652872290,15); (652816570,15); (652760853,15); (652705138,15); (652649425,15); (652593714,15); (652538006,15);
(652482299,15); (652426595,15); (652370893,15); (652315194,15); (652259496,15); (652203801,15); (652148108,15); (652092417,15);
(652036729,15); (651981042,15); (651925358,15); (651869676,15); (651813997,15); (651758319,15); (651702644,15); (651646971,15);
(651591300,15); (651535631,15); (651479965,15); (651424301,15); (651368639,15); (651312979,15); (651257321,15); (651201666,15);
(651146013,15); (651090362,15); (651034713,15); (650979067,15); (650923422,15); (650867780,15); (650812140,15); (650756503,15);
(650700867,15); (650645234,15); (650589603,15); (650533974,15); (650478348,15); (650422723,15); (650367101,15); (650311481,15);
(650255863,15); (650200248,15); (650144635,15); (650089023,15); (650033415,15); (649977808,15); (649922203,15); (649866601,15);
(649811001,15); (649755403,15); (649699808,15); (649644214,15); (649588623,15); (649533034,15); (649477447,15); (649421862,15);
(649366280,15); (649310700,15); (649255122,15); (649199546,15); (649143973,15); (649088401,15); (649032832,15); (648977265,15);
(648921701,15); (648866138,15); (648810578,15); (648755020,15); (648699464,15); (648643910,15); (648588359,15); (648532809,15);
(648477262,15); (648421717,15); (648366175,15); (648310634,15); (648255096,15); (648199560,15); (648144026,15); (648088495,15);
(648032965,15); (647977438,15); (647921913,15); (647866390,15); (647810870,15); (647755351,15); (647699835,15); (647644321,15);
(647588810,15); (647533300,15); (647477793,15); (647422287,15); (647366785,15); (647311284,15); (647255785,15); (647200289,15);
(647144795,15); (647089303,15); (647033813,15); (646978326,15); (646922840,15); (646867357,15); (646811876,15); (646756398,15);
(646700921,15); (646645447,15); (646589975,15); (646534505,15); (646479037,15); (646423572,15); (646368108,15); (646312647,15);
(646257189,15); (646201732,15); (646146277,15); (646090825,15); (646035375,15); (645979927,15); (645924482,15); (645869038,15);
(645813597,15); (645758158,15); (645702721,15); (645647286,15); (645591854,15); (645536423,15); (645480995,15); (645425570,15);
(645370146,15); (645314724,15); (645259305,15); (645203888,15); (645148473,15); (645093061,15); (645037650,15); (644982242,15);
(644926836,15); (644871432,15); (644816030,15); (644760631,15); (644705233,15); (644649838,15); (644594445,15); (644539055,15);
(644483666,15); (644428280,15); (644372896,15); (644317514,15); (644262134,15); (644206757,15); (644151382,15); (644096008,15);
(644040638,15); (643985269,15); (643929902,15); (643874538,15); (643819176,15); (643763816,15); (643708458,15); (643653103,15);
(643597749,15); (643542398,15); (643487049,15); (643431703,15); (643376358,15); (643321016,15); (643265675,15); (643210337,15);
(643155002,15); (643099668,15); (643044337,15); (642989008,15); (642933681,15); (642878356,15); (642823033,15); (642767713,15);
(642712394,15); (642657078,15); (642601765,15); (642546453,15); (642491143,15); (642435836,15); (642380531,15); (642325228,15);
(642269928,15); (642214629,15); (642159333,15); (642104039,15); (642048747,15); (641993457,15); (641938170,15); (641882884,15);
(641827601,15); (641772320,15); (641717041,15); (641661765,15); (641606490,15); (641551218,15); (641495948,15); (641440680,15);
(641385415,15); (641330151,15); (641274890,15); (641219631,15); (641164374,15); (641109119,15); (641053867,15); (640998617,15);
(640943369,15); (640888123,15); (640832879,15); (640777637,15); (640722398,15); (640667161,15); (640611926,15); (640556693,15);
(640501463,15); (640446234,15); (640391008,15); (640335784,15); (640280562,15); (640225342,15); (640170125,15); (640114910,15);
(640059697,15); (640004486,15); (639949277,15); (639894070,15); (639838866,15); (639783664,15); (639728464,15); (639673266,15);
(639618071,15); (639562877,15); (639507686,15); (639452497,15); (639397310,15); (639342125,15); (639286943,15); (639231763,15);
(639176584,15); (639121409,15); (639066235,15); (639011063,15); (638955894,15); (638900727,15); (638845562,15); (638790399,15);
(638735238,15); (638680080,15); (638624923,15); (638569769,15); (638514618,15); (638459468,15); (638404320,15); (638349175,15);
(638294032,15); (638238891,15); (638183752,15); (638128615,15); (638073481,15); (638018349,15); (637963219,15); (637908091,15);
(637852965,15); (637797841,15); (637742720,15); (637687601,15); (637632484,15); (637577369,15); (637522257,15); (637467146,15);
(637412038,15); (637356932,15); (637301828,15); (637246726,15); (637191627,15); (637136529,15); (637081434,15); (637026341,15);
(636971250,15); (636916162,15); (636861075,15); (636805991,15); (636750909,15); (636695829,15); (636640751,15); (636585676,15);
(636530602,15); (636475531,15); (636420462,15); (636365395,15); (636310331,15); (636255268,15); (636200208,15); (636145150,15);
(636090094,15); (636035040,15); (635979988,15); (635924939,15); (635869892,15); (635814847,15); (635759804,15); (635704763,15);
(635649725,15); (635594688,15); (635539654,15); (635484622,15); (635429592,15); (635374564,15); (635319539,15); (635264516,15);
(635209495,15); (635154476,15); (635099459,15); (635044444,15); (634989432,15); (634934422,15); (634879414,15); (634824408,15);
(634769404,15); (634714402,15); (634659403,15); (634604406,15); (634549411,15); (634494418,15); (634439427,15); (634384439,15);
(634329453,15); (634274468,15); (634219486,15); (634164507,15); (634109529,15); (634054553,15); (633999580,15); (633944609,15);
(633889640,15); (633834673,15); (633779709,15); (633724746,15); (633669786,15); (633614828,15); (633559872,15); (633504918,15);
(633449967,15); (633395017,15); (633340070,15); (633285125,15); (633230182,15); (633175242,15); (633120303,15); (633065367,15);
(633010433,15); (632955501,15); (632900571,15); (632845643,15); (632790717,15); (632735794,15); (632680873,15); (632625954,15);
(632571037,15); (632516122,15); (632461210,15); (632406300,15); (632351392,15); (632296486,15); (632241582,15); (632186680,15);
(632131781,15); (632076883,15); (632021988,15); (631967095,15); (631912204,15); (631857316,15); (631802429,15); (631747545,15);
(631692663,15); (631637783,15); (631582905,15); (631528029,15); (631473156,15); (631418285,15); (631363416,15); (631308549,15);
(631253684,15); (631198821,15); (631143961,15); (631089102,15); (631034246,15); (630979392,15); (630924541,15); (630869691,15);
(630814843,15); (630759998,15); (630705155,15); (630650314,15); (630595475,15); (630540639,15); (630485804,15); (630430972,15);
(630376142,15); (630321314,15); (630266488,15); (630211664,15); (630156843,15); (630102023,15); (630047206,15); (629992391,15);
(629937578,15); (629882768,15); (629827959,15); (629773153,15); (629718349,15); (629663547,15); (629608747,15); (629553949,15);
(629499154,15); (629444360,15); (629389569,15); (629334780,15); (629279993,15); (629225208,15); (629170426,15); (629115645,15);
(629060867,15); (629006091,15); (628951317,15); (628896545,15); (628841776,15); (628787008,15); (628732243,15); (628677480,15);
(628622719,15); (628567960,15); (628513204,15); (628458449,15); (628403697,15); (628348947,15); (628294199,15); (628239453,15);
(628184709,15); (628129968,15); (628075228,15); (628020491,15); (627965756,15); (627911023,15); (627856292,15); (627801564,15);
(627746838,15); (627692113,15); (627637391,15); (627582671,15); (627527953,15); (627473238,15); (627418524,15); (627363813,15);
(627309104,15); (627254397,15); (627199692,15); (627144990,15); (627090289,15); (627035591,15); (626980894,15); (626926200,15);
(626871509,15); (626816819,15); (626762131,15); (626707446,15); (626652763,15); (626598081,15); (626543403,15); (626488726,15);
(626434051,15); (626379379,15); (626324708,15); (626270040,15); (626215374,15); (626160710,15); (626106049,15); (626051389,15);
(625996732,15); (625942076,15); (625887423,15); (625832772,15); (625778124,15); (625723477,15); (625668832,15); (625614190,15);
(625559550,15); (625504912,15); (625450276,15); (625395642,15); (625341011,15); (625286381,15); (625231754,15); (625177129,15);
(625122506,15); (625067885,15); (625013267,15); (624958650,15); (624904036,15); (624849424,15); (624794814,15); (624740206,15);
(624685600,15); (624630996,15); (624576395,15); (624521796,15); (624467199,15); (624412604,15); (624358011,15); (624303420,15);
(624248832,15); (624194245,15); (624139661,15); (624085079,15); (624030499,15); (623975921,15); (623921346,15); (623866772,15);
(623812201,15); (623757632,15); (623703064,15); (623648500,15); (623593937,15); (623539376,15); (623484818,15); (623430262,15);
(623375707,15); (623321155,15); (623266606,15); (623212058,15); (623157512,15); (623102969,15); (623048428,15); (622993889,15);
(622939352,15); (622884817,15); (622830284,15); (622775754,15); (622721225,15); (622666699,15); (622612175,15); (622557653,15);
(622503133,15); (622448616,15); (622394100,15); (622339587,15); (622285076,15); (622230566,15); (622176060,15); (622121555,15);
(622067052,15); (622012552,15); (621958053,15); (621903557,15); (621849063,15); (621794571,15); (621740082,15); (621685594,15);
(621631108,15); (621576625,15); (621522144,15); (621467665,15); (621413188,15); (621358713,15); (621304241,15); (621249770,15);
(621195302,15); (621140836,15); (621086372,15); (621031910,15); (620977450,15); (620922992,15); (620868537,15); (620814084,15);
(620759633,15); (620705183,15); (620650737,15); (620596292,15); (620541849,15); (620487409,15); (620432970,15); (620378534,15);
(620324100,15); (620269668,15); (620215239,15); (620160811,15); (620106385,15); (620051962,15); (619997541,15); (619943122,15);
(619888705,15); (619834290,15); (619779878,15); (619725467,15); (619671059,15); (619616652,15); (619562248,15); (619507846,15);
(619453447,15); (619399049,15); (619344653,15); (619290260,15); (619235869,15); (619181480,15); (619127093,15); (619072708,15);
(619018325,15); (618963945,15); (618909566,15); (618855190,15); (618800816,15); (618746444,15); (618692074,15); (618637706,15);
(618583341,15); (618528977,15); (618474616,15); (618420257,15); (618365900,15); (618311545,15); (618257192,15); (618202841,15);
(618148493,15); (618094146,15); (618039802,15); (617985460,15); (617931120,15); (617876782,15); (617822447,15); (617768113,15);
(617713782,15); (617659452,15); (617605125,15); (617550800,15); (617496477,15); (617442157,15); (617387838,15); (617333522,15);
(617279207,15); (617224895,15); (617170585,15); (617116277,15); (617061971,15); (617007667,15); (616953366,15); (616899067,15);
(616844769,15); (616790474,15); (616736181,15); (616681890,15); (616627602,15); (616573315,15); (616519030,15); (616464748,15);
(616410468,15); (616356190,15); (616301914,15); (616247640,15); (616193368,15); (616139099,15); (616084831,15); (616030566,15);
(615976303,15); (615922042,15); (615867783,15); (615813526,15); (615759272,15); (615705019,15); (615650769,15); (615596520,15);
(615542274,15); (615488030,15); (615433789,15); (615379549,15); (615325311,15); (615271076,15); (615216842,15); (615162611,15);
(615108382,15); (615054155,15); (614999930,15); (614945708,15); (614891487,15); (614837269,15); (614783052,15); (614728838,15);
(614674626,15); (614620416,15); (614566208,15); (614512003,15); (614457799,15); (614403598,15); (614349398,15); (614295201,15);
(614241006,15); (614186813,15); (614132623,15); (614078434,15); (614024247,15); (613970063,15); (613915881,15); (613861701,15);
(613807523,15); (613753347,15); (613699173,15); (613645001,15); (613590832,15); (613536664,15); (613482499,15); (613428336,15);
(613374175,15); (613320016,15); (613265859,15); (613211705,15); (613157552,15); (613103402,15); (613049253,15); (612995107,15);
(612940963,15); (612886821,15); (612832682,15); (612778544,15); (612724408,15); (612670275,15); (612616144,15); (612562015,15);
(612507888,15); (612453763,15); (612399640,15); (612345519,15); (612291401,15); (612237284,15); (612183170,15); (612129058,15);
(612074948,15); (612020840,15); (611966734,15); (611912630,15); (611858529,15); (611804429,15); (611750332,15); (611696237,15);
(611642144,15); (611588053,15); (611533964,15); (611479877,15); (611425793,15); (611371710,15); (611317630,15); (611263551,15);
(611209475,15); (611155401,15); (611101329,15); (611047260,15); (610993192,15); (610939127,15); (610885063,15); (610831002,15);
(610776943,15); (610722886,15); (610668831,15); (610614778,15); (610560727,15); (610506679,15); (610452632,15); (610398588,15);
(610344546,15); (610290506,15); (610236468,15); (610182432,15); (610128398,15); (610074366,15); (610020337,15); (609966310,15);
(609912284,15); (609858261,15); (609804240,15); (609750221,15); (609696204,15); (609642190,15); (609588177,15); (609534167,15);
(609480158,15); (609426152,15); (609372148,15); (609318146,15); (609264146,15); (609210148,15); (609156153,15); (609102159,15);
(609048168,15); (608994178,15); (608940191,15); (608886206,15); (608832223,15); (608778242,15); (608724264,15); (608670287,15);
(608616312,15); (608562340,15); (608508370,15); (608454402,15); (608400436,15); (608346472,15); (608292510,15); (608238550,15);
(608184593,15); (608130637,15); (608076684,15); (608022732,15); (607968783,15); (607914836,15); (607860891,15); (607806949,15);
(607753008,15); (607699069,15); (607645133,15); (607591198,15); (607537266,15); (607483336,15); (607429408,15); (607375482,15);
(607321558,15); (607267637,15); (607213717,15); (607159800,15); (607105884,15); (607051971,15); (606998060,15); (606944151,15);
(606890244,15); (606836339,15); (606782436,15); (606728536,15); (606674637,15); (606620741,15); (606566847,15); (606512955,15);
(606459065,15); (606405177,15); (606351291,15); (606297407,15); (606243525,15); (606189646,15); (606135769,15); (606081893,15);
(606028020,15); (605974149,15); (605920280,15); (605866413,15); (605812549,15); (605758686,15); (605704825,15); (605650967,15);
(605597111,15); (605543256,15); (605489404,15); (605435554,15); (605381706,15); (605327861,15); (605274017,15); (605220175,15);
(605166336,15); (605112499,15); (605058663,15); (605004830,15); (604950999,15); (604897170,15); (604843343,15); (604789519,15);
(604735696,15); (604681876,15); (604628057,15); (604574241,15); (604520427,15); (604466615,15); (604412805,15); (604358997,15);
(604305191,15); (604251387,15); (604197586,15); (604143786,15); (604089989,15); (604036194,15); (603982401,15); (603928609,15);
(603874821,15); (603821034,15); (603767249,15); (603713466,15); (603659686,15); (603605907,15); (603552131,15); (603498357,15);
(603444585,15); (603390815,15); (603337047,15); (603283281,15); (603229517,15); (603175756,15); (603121996,15); (603068239,15);
(603014483,15); (602960730,15); (602906979,15); (602853230,15); (602799483,15); (602745738,15); (602691996,15); (602638255,15);
(602584516,15); (602530780,15); (602477046,15); (602423313,15); (602369583,15); (602315855,15); (602262129,15); (602208406,15);
(602154684,15); (602100964,15); (602047247,15); (601993531,15); (601939818,15); (601886107,15); (601832398,15); (601778691,15);
(601724986,15); (601671283,15); (601617582,15); (601563884,15); (601510187,15); (601456493,15); (601402800,15); (601349110,15)].

(** entries 51200..53247 *)
Definition RECIPROCAL_25 : list (Z * Z) := [
(601295422,15); (601241736,15); (601188052,15); (601134370,15); (601080690,15); (601027013,15); (600973337,15); (600919664,15);
(600865992,15); (600812323,15); (600758656,15); (600704991,15); (600651328,15); (600597667,15); (600544008,15); (600490351,15);
(600436697,15); (600383044,15); (600329394,15); (600275746,15); (600222099,15); (600168455,15); (600114813,15); (600061173,15);
(600007535,15); (599953900,15); (599900266,15); (599846634,15); (599793005,15); (599739378,15); (599685752,15); (599632129,15);
(599578508,15); (599524889,15); (599471272,15); (599417657,15); (599364045,15); (599310434,15); (599256825,15); (599203219,15);
(599149615,15); (599096012,15); (599042412,15); (598988814,15); (598935218,15); (598881624,15); (598828033,15); (598774443,15);
(598720855,15); (598667270,15); (598613686,15); (598560105,15); (598506526,15); (598452949,15); (598399373,15); (598345800,15);
(598292230,15); (598238661,15); (598185094,15); (598131529,15); (598077967,15); (598024406,15); (597970848,15); (597917292,15);
(597863738,15); (597810186,15); (597756636,15); (597703088,15); (597649542,15); (597595998,15); (597542457,15); (597488917,15);
(597435380,15); (597381844,15); (597328311,15); (597274780,15); (597221251,15); (597167724,15); (597114199,15); (597060676,15);
(597007155,15); (596953636,15); (596900120,15); (596846605,15); (596793093,15); (596739583,15); (596686074,15); (596632568,15);
(596579064,15); (596525562,15); (596472062,15); (596418564,15); (596365069,15); (596311575,15); (596258084,15); (596204594,15);
(596151107,15); (596097621,15); (596044138,15); (595990657,15); (595937178,15); (595883701,15); (595830226,15); (595776754,15);
(595723283,15); (595669814,15); (595616348,15); (595562883,15); (595509421,15); (595455961,15); (595402502,15); (595349046,15);
(595295592,15); (595242140,15); (595188691,15); (595135243,15); (595081797,15); (595028354,15); (594974912,15); (594921473,15);
(594868035,15); (594814600,15); (594761167,15); (594707736,15); (594654307,15); (594600880,15); (594547455,15); (594494032,15);
(594440611,15); (594387193,15); (594333776,15); (594280362,15); (594226949,15); (594173539,15); (594120131,15); (594066725,15);
(594013321,15); (593959919,15); (593906519,15); (593853121,15); (593799725,15); (593746332,15); (593692940,15); (593639551,15);
(593586163,15); (593532778,15); (593479395,15); (593426013,15); (593372634,15); (593319257,15); (593265882,15); (593212509,15);
(593159139,15); (593105770,15); (593052403,15); (592999039,15); (592945676,15); (592892316,15); (592838958,15); (592785601,15);
(592732247,15); (592678895,15); (592625545,15); (592572197,15); (592518851,15); (592465508,15); (592412166,15); (592358826,15);
(592305489,15); (592252153,15); (592198820,15); (592145489,15); (592092159,15); (592038832,15); (591985507,15); (591932184,15);
(591878863,15); (591825544,15); (591772228,15); (591718913,15); (591665600,15); (591612290,15); (591558981,15); (591505675,15);
(591452371,15); (591399068,15); (591345768,15); (591292470,15); (591239174,15); (591185880,15); (591132588,15); (591079298,15);
(591026011,15); (590972725,15); (590919441,15); (590866160,15); (590812881,15); (590759603,15); (590706328,15); (590653055,15);
(590599784,15); (590546514,15); (590493247,15); (590439983,15); (590386720,15); (590333459,15); (590280200,15); (590226944,15);
(590173689,15); (590120437,15); (590067186,15); (590013938,15); (589960691,15); (589907447,15); (589854205,15); (589800965,15);
(589747727,15); (589694491,15); (589641257,15); (589588026,15); (589534796,15); (589481568,15); (589428343,15); (589375119,15);
(589321898,15); (589268678,15); (589215461,15); (589162246,15); (589109033,15); (589055822,15); (589002613,15); (588949406,15);
(588896201,15); (588842998,15); (588789797,15); (588736599,15); (588683402,15); (588630207,15); (588577015,15); (588523825,15);
(588470636,15); (588417450,15); (588364266,15); (588311084,15); (588257904,15); (588204726,15); (588151550,15); (588098376,15);
(588045204,15); (587992034,15); (587938867,15); (587885701,15); (587832538,15); (587779376,15); (587726217,15); (587673059,15);
(587619904,15); (587566751,15); (587513600,15); (587460451,15); (587407304,15); (587354159,15); (587301016,15); (587247875,15);
(587194737,15); (587141600,15); (587088465,15); (587035333,15); (586982202,15); (586929074,15); (586875948,15); (586822823,15);
(586769701,15); (586716581,15); (586663463,15); (586610347,15); (586557233,15); (586504121,15); (586451011,15); (586397903,15);
(586344798,15); (586291694,15); (586238592,15); (586185493,15); (586132395,15); (586079300,15); (586026207,15); (585973115,15);
(585920026,15); (585866939,15); (585813854,15); (585760771,15); (585707690,15); (585654611,15); (585601534,15); (585548460,15);
(585495387,15); (585442316,15); (585389248,15); (585336181,15); (585283117,15); (585230054,15); (585176994,15); (585123936,15);
(585070879,15); (585017825,15); (584964773,15); (584911723,15); (584858675,15); (584805629,15); (584752585,15); (584699544,15);
(584646504,15); (584593466,15); (584540431,15); (584487397,15); (584434365,15); (584381336,15); (584328309,15); (584275283,15);
(584222260,15); (584169239,15); (584116220,15); (584063203,15); (584010188,15); (583957175,15); (583904164,15); (583851155,15);
(583798148,15); (583745143,15); (583692140,15); (583639140,15); (583586141,15); (583533145,15); (583480150,15); (583427158,15);
(583374168,15); (583321179,15); (583268193,15); (583215209,15); (583162227,15); (583109247,15); (583056269,15); (583003293,15);
(582950319,15); (582897347,15); (582844377,15); (582791409,15); (582738444,15); (582685480,15); (582632518,15); (582579559,15);
(582526601,15); (582473646,15); (582420693,15); (582367741,15); (582314792,15); (582261845,15); (582208900,15); (582155957,15);
(582103016,15); (582050077,15); (581997140,15); (581944205,15); (581891272,15); (581838341,15); (581785413,15); (581732486,15);
(581679561,15); (581626639,15); (581573718,15); (581520800,15); (581467883,15); (581414969,15); (581362057,15); (581309147,15);
(581256238,15); (581203332,15); (581150428,15); (581097526,15); (581044626,15); (580991728,15); (580938832,15); (580885939,15);
(580833047,15); (580780157,15); (580727269,15); (580674384,15); (580621500,15); (580568619,15); (580515739,15); (580462862,15);
(580409986,15); (580357113,15); (580304242,15); (580251372,15); (580198505,15); (580145640,15); (580092777,15); (580039916,15);
(579987057,15); (579934200,15); (579881345,15); (579828492,15); (579775642,15); (579722793,15); (579669946,15); (579617102,15);
(579564259,15); (579511418,15); (579458580,15); (579405743,15); (579352909,15); (579300077,15); (579247246,15); (579194418,15);
(579141592,15); (579088768,15); (579035946,15); (578983125,15); (578930307,15); (578877491,15); (578824678,15); (578771866,15);
(578719056,15); (578666248,15); (578613442,15); (578560639,15); (578507837,15); (578455037,15); (578402240,15); (578349444,15);
(578296651,15); (578243859,15); (578191070,15); (578138282,15); (578085497,15); (578032714,15); (577979933,15); (577927154,15);
(577874376,15); (577821601,15); (577768828,15); (577716057,15); (577663288,15); (577610521,15); (577557757,15); (577504994,15);
(577452233,15); (577399474,15); (577346718,15); (577293963,15); (577241210,15); (577188460,15); (577135711,15); (577082965,15);
(577030220,15); (576977478,15); (576924738,15); (576871999,15); (576819263,15); (576766529,15); (576713797,15); (576661066,15);
(576608338,15); (576555612,15); (576502888,15); (576450166,15); (576397446,15); (576344728,15); (576292013,15); (576239299,15);
(576186587,15); (576133877,15); (576081170,15); (576028464,15); (575975760,15); (575923059,15); (575870359,15); (575817662,15);
(575764966,15); (575712273,15); (575659581,15); (575606892,15); (575554205,15); (575501519,15); (575448836,15); (575396155,15);
(575343476,15); (575290799,15); (575238124,15); (575185451,15); (575132780,15); (575080111,15); (575027444,15); (574974779,15);
(574922116,15); (574869455,15); (574816797,15); (574764140,15); (574711485,15); (574658832,15); (574606182,15); (574553533,15);
(574500887,15); (574448242,15); (574395600,15); (574342959,15); (574290321,15); (574237684,15); (574185050,15); (574132418,15);
(574079788,15); (574027159,15); (573974533,15); (573921909,15); (573869287,15); (573816667,15); (573764049,15); (573711433,15);
(573658819,15); (573606207,15); (573553597,15); (573500989,15); (573448383,15); (573395779,15); (573343178,15); (573290578,15);
(573237980,15); (573185384,15); (573132791,15); (573080199,15); (573027610,15); (572975022,15); (572922437,15); (572869853,15);
(572817272,15); (572764692,15); (572712115,15); (572659540,15); (572606966,15); (572554395,15); (572501826,15); (572449259,15);
(572396693,15); (572344130,15); (572291569,15); (572239010,15); (572186453,15); (572133898,15); (572081345,15); (572028794,15);
(571976245,15); (571923698,15); (571871153,15); (571818610,15); (571766070,15); (571713531,15); (571660994,15); (571608459,15);
(571555927,15); (571503396,15); (571450867,15); (571398341,15); (571345816,15); (571293294,15); (571240773,15); (571188255,15);
(571135738,15); (571083224,15); (571030711,15); (570978201,15); (570925693,15); (570873186,15); (570820682,15); (570768180,15);
(570715680,15); (570663181,15); (570610685,15); (570558191,15); (570505699,15); (570453209,15); (570400721,15); (570348235,15);
(570295751,15); (570243269,15); (570190789,15); (570138311,15); (570085835,15); (570033361,15); (569980889,15); (569928419,15);
(569875952,15); (569823486,15); (569771022,15); (569718560,15); (569666101,15); (569613643,15); (569561187,15); (569508734,15);
(569456282,15); (569403833,15); (569351385,15); (569298940,15); (569246496,15); (569194055,15); (569141615,15); (569089178,15);
(569036742,15); (568984309,15); (568931878,15); (568879448,15); (568827021,15); (568774596,15); (568722172,15); (568669751,15);
(568617332,15); (568564915,15); (568512500,15); (568460087,15); (568407675,15); (568355266,15); (568302859,15); (568250454,15);
(568198051,15); (568145650,15); (568093251,15); (568040854,15); (567988459,15); (567936066,15); (567883676,15); (567831287,15);
(567778900,15); (567726515,15); (567674132,15); (567621751,15); (567569373,15); (567516996,15); (567464621,15); (567412249,15);
(567359878,15); (567307509,15); (567255143,15); (567202778,15); (567150415,15); (567098055,15); (567045696,15); (566993340,15);
(566940985,15); (566888633,15); (566836282,15); (566783934,15); (566731587,15); (566679243,15); (566626900,15); (566574560,15);
(566522222,15); (566469885,15); (566417551,15); (566365219,15); (566312888,15); (566260560,15); (566208234,15); (566155910,15);
(566103587,15); (566051267,15); (565998949,15); (565946633,15); (565894319,15); (565842007,15); (565789697,15); (565737388,15);
(565685082,15); (565632778,15); (565580476,15); (565528176,15); (565475878,15); (565423582,15); (565371288,15); (565318996,15);
(565266706,15); (565214418,15); (565162132,15); (565109849,15); (565057567,15); (565005287,15); (564953009,15); (564900733,15);
(564848459,15); (564796187,15); (564743918,15); (564691650,15); (564639384,15); (564587120,15); (564534859,15); (564482599,15);
(564430341,15); (564378085,15); (564325832,15); (564273580,15); (564221330,15); (564169083,15); (564116837,15); (564064594,15);
(564012352,15); (563960112,15); (563907875,15); (563855639,15); (563803406,15); (563751174,15); (563698945,15); (563646717,15);
(563594492,15); (563542268,15); (563490047,15); (563437827,15); (563385610,15); (563333394,15); (563281181,15); (563228969,15);
(563176760,15); (563124553,15); (563072347,15); (563020144,15); (562967942,15); (562915743,15); (562863546,15); (562811350,15);
(562759157,15); (562706966,15); (562654776,15); (562602589,15); (562550404,15); (562498221,15); (562446039,15); (562393860,15);
(562341683,15); (562289508,15); (562237334,15); (562185163,15); (562132994,15); (562080827,15); (562028662,15); (561976498,15);
(561924337,15); (561872178,15); (561820021,15); (561767866,15); (561715713,15); (561663561,15); (561611412,15); (561559265,15);
(561507120,15); (561454977,15); (561402836,15); (561350697,15); (561298560,15); (561246425,15); (561194292,15); (561142160,15);
(561090031,15); (561037904,15); (560985779,15); (560933656,15); (560881535,15); (560829416,15); (560777299,15); (560725184,15);
(560673071,15); (560620960,15); (560568851,15); (560516744,15); (560464639,15); (560412536,15); (560360435,15); (560308336,15);
(560256239,15); (560204144,15); (560152051,15); (560099960,15); (560047871,15); (559995785,15); (559943700,15); (559891617,15);
(559839536,15); (559787457,15); (559735380,15); (559683305,15); (559631232,15); (559579161,15); (559527092,15); (559475025,15);
(559422960,15); (559370897,15); (559318837,15); (559266778,15); (559214721,15); (559162666,15); (559110613,15); (559058562,15);
(559006513,15); (558954466,15); (558902421,15); (558850379,15); (558798338,15); (558746299,15); (558694262,15); (558642227,15);
(558590194,15); (558538163,15); (558486134,15); (558434108,15); (558382083,15); (558330060,15); (558278039,15); (558226020,15);
(558174003,15); (558121988,15); (558069975,15); (558017965,15); (557965956,15); (557913949,15); (557861944,15); (557809941,15);
(557757940,15); (557705941,15); (557653944,15); (557601950,15); (557549957,15); (557497966,15); (557445977,15); (557393990,15);
(557342005,15); (557290022,15); (557238041,15); (557186062,15); (557134086,15); (557082111,15); (557030138,15); (556978167,15);
(556926198,15); (556874231,15); (556822266,15); (556770303,15); (556718342,15); (556666383,15); (556614426,15); (556562471,15);
(556510519,15); (556458568,15); (556406619,15); (556354672,15); (556302727,15); (556250784,15); (556198843,15); (556146904,15);
(556094967,15); (556043032,15); (555991099,15); (555939168,15); (555887239,15); (555835312,15); (555783387,15); (555731464,15);
(555679543,15); (555627624,15); (555575707,15); (555523792,15); (555471879,15); (555419968,15); (555368059,15); (555316152,15);
(555264247,15); (555212344,15); (555160443,15); (555108544,15); (555056647,15); (555004752,15); (554952858,15); (554900967,15);
(554849078,15); (554797191,15); (554745306,15); (554693423,15); (554641542,15); (554589663,15); (554537785,15); (554485910,15);
(554434037,15); (554382166,15); (554330297,15); (554278430,15); (554226564,15); (554174701,15); (554122840,15); (554070981,15);
(554019123,15); (553967268,15); (553915415,15); (553863564,15); (553811714,15); (553759867,15); (553708022,15); (553656179,15);
(553604337,15); (553552498,15); (553500661,15); (553448825,15); (553396992,15); (553345160,15); (553293331,15); (553241504,15);
(553189678,15); (553137855,15); (553086033,15); (553034214,15); (552982397,15); (552930581,15); (552878768,15); (552826956,15);
(552775147,15); (552723339,15); (552671534,15); (552619730,15); (552567929,15); (552516129,15); (552464332,15); (552412536,15);
(552360742,15); (552308951,15); (552257161,15); (552205374,15); (552153588,15); (552101804,15); (552050023,15); (551998243,15);
(551946465,15); (551894689,15); (551842916,15); (551791144,15); (551739374,15); (551687607,15); (551635841,15); (551584077,15);
(551532315,15); (551480555,15); (551428797,15); (551377042,15); (551325288,15); (551273536,15); (551221786,15); (551170038,15);
(551118292,15); (551066548,15); (551014806,15); (550963066,15); (550911328,15); (550859592,15); (550807858,15); (550756126,15);
(550704396,15); (550652668,15); (550600942,15); (550549218,15); (550497496,15); (550445776,15); (550394057,15); (550342341,15);
(550290627,15); (550238915,15); (550187205,15); (550135496,15); (550083790,15); (550032086,15); (549980384,15); (549928683,15);
(549876985,15); (549825289,15); (549773594,15); (549721902,15); (549670211,15); (549618523,15); (549566836,15); (549515152,15);
(549463470,15); (549411789,15); (549360111,15); (549308434,15); (549256759,15); (549205087,15); (549153416,15); (549101748,15);
(549050081,15); (548998416,15); (548946754,15); (548895093,15); (548843434,15); (548791777,15); (548740123,15); (548688470,15);
(548636819,15); (548585170,15); (548533523,15); (548481879,15); (548430236,15); (548378595,15); (548326956,15); (548275319,15);
(548223684,15); (548172051,15); (548120420,15); (548068791,15); (548017164,15); (547965539,15); (547913916,15); (547862294,15);
(547810675,15); (547759058,15); (547707443,15); (547655830,15); (547604218,15); (547552609,15); (547501002,15); (547449396,15);
(547397793,15); (547346192,15); (547294592,15); (547242995,15); (547191400,15); (547139806,15); (547088215,15); (547036625,15);
(546985038,15); (546933452,15); (546881868,15); (546830287,15); (546778707,15); (546727129,15); (546675554,15); (546623980,15);
(546572408,15); (546520839,15); (546469271,15); (546417705,15); (546366141,15); (546314579,15); (546263019,15); (546211461,15);
(546159905,15); (546108351,15); (546056799,15); (546005249,15); (545953701,15); (545902155,15); (545850611,15); (545799069,15);
(545747529,15); (545695991,15); (545644455,15); (545592920,15); (545541388,15); (545489858,15); (545438329,15); (545386803,15);
(545335279,15); (545283756,15); (545232236,15); (545180717,15); (545129201,15); (545077686,15); (545026174,15); (544974663,15);
(544923155,15); (544871648,15); (544820143,15); (544768641,15); (544717140,15); (544665641,15); (544614144,15); (544562649,15);
(544511157,15); (544459666,15); (544408177,15); (544356690,15); (544305205,15); (544253722,15); (544202241,15); (544150762,15);
(544099285,15); (544047810,15); (543996336,15); (543944865,15); (543893396,15); (543841929,15); (543790463,15); (543739000,15);
(543687539,15); (543636079,15); (543584622,15); (543533166,15); (543481713,15); (543430262,15); (543378812,15); (543327364,15);
(543275919,15); (543224475,15); (543173033,15); (543121594,15); (543070156,15); (543018720,15); (542967286,15); (542915855,15);
(542864425,15); (542812997,15); (542761571,15); (542710147,15); (542658725,15); (542607305,15); (542555887,15); (542504471,15);
(542453057,15); (542401644,15); (542350234,15); (542298826,15); (542247420,15); (542196015,15); (542144613,15); (542093213,15);
(542041814,15); (541990418,15); (541939023,15); (541887631,15); (541836240,15); (541784851,15); (541733465,15); (541682080,15);
(541630697,15); (541579317,15); (541527938,15); (541476561,15); (541425186,15); (541373813,15); (541322442,15); (541271073,15);
(541219706,15); (541168341,15); (541116978,15); (541065617,15); (541014258,15); (540962901,15); (540911546,15); (540860192,15);
(540808841,15); (540757492,15); (540706144,15); (540654799,15); (540603455,15); (540552114,15); (540500774,15); (540449437,15);
(540398101,15); (540346767,15); (540295436,15); (540244106,15); (540192778,15); (540141452,15); (540090129,15); (540038807,15);
(539987487,15); (539936169,15); (539884853,15); (539833539,15); (539782227,15); (539730916,15); (539679608,15); (539628302,15);
(539576998,15); (539525695,15); (539474395,15); (539423097,15); (539371800,15); (539320506,15); (539269213,15); (539217923,15);
(539166634,15); (539115348,15); (539064063,15); (539012780,15); (538961499,15); (538910221,15); (538858944,15); (538807669,15);
(538756396,15); (538705125,15); (538653856,15); (538602589,15); (538551324,15); (538500061,15); (538448799,15); (538397540,15);
(538346283,15); (538295028,15); (538243774,15); (538192523,15); (538141273,15); (538090026,15); (538038780,15); (537987537,15);
(537936295,15); (537885055,15); (537833818,15); (537782582,15); (537731348,15); (537680116,15); (537628886,15); (537577659,15);
(537526433,15); (537475209,15); (537423986,15); (537372766,15); (537321548,15); (537270332,15); (537219118,15); (537167905,15);
(537116695,15); (537065487,15); (537014280,15); (536963076,15); (536911873,15); (536860673,15); (536809474,15); (536758277,15);
(536707082,15); (536655890,15); (536604699,15); (536553510,15); (536502323,15); (536451138,15); (536399955,15); (536348774,15);
(536297595,15); (536246418,15); (536195243,15); (536144069,15); (536092898,15); (536041729,15); (535990561,15); (535939396,15);
(535888232,15); (535837071,15); (535785911,15); (535734754,15); (535683598,15); (535632444,15); (535581292,15); (535530143,15);
(535478995,15); (535427849,15); (535376705,15); (535325563,15); (535274423,15); (535223284,15); (535172148,15); (535121014,15);
(535069882,15); (535018751,15); (534967623,15); (534916497,15); (534865372,15); (534814249,15); (534763129,15); (534712010,15);
(534660893,15); (534609779,15); (534558666,15); (534507555,15); (534456446,15); (534405339,15); (534354234,15); (534303131,15);
(534252030,15); (534200931,15); (534149834,15); (534098738,15); (534047645,15); (533996554,15); (533945464,15); (533894377,15);
(533843291,15); (533792208,15); (533741126,15); (533690046,15); (533638968,15); (533587893,15); (533536819,15); (533485747,15);
(533434677,15); (533383609,15); (533332543,15); (533281479,15); (533230416,15); (533179356,15); (533128298,15); (533077242,15);
(533026187,15); (532975135,15); (532924084,15); (532873036,15); (532821989,15); (532770944,15); (532719901,15); (532668861,15);
(532617822,15); (532566785,15); (532515750,15); (532464717,15); (532413686,15); (532362657,15); (532311629,15); (532260604,15);
(532209581,15); (532158560,15); (532107540,15); (532056523,15); (532005507,15); (531954493,15); (531903482,15); (531852472,15);
(531801464,15); (531750459,15); (531699455,15); (531648453,15); (531597453,15); (531546455,15); (531495459,15); (531444464,15);
(531393472,15); (531342482,15); (531291493,15); (531240507,15); (531189523,15); (531138540,15); (531087559,15); (531036581,15);
(530985604,15); (530934629,15); (530883656,15); (530832686,15); (530781717,15); (530730750,15); (530679785,15); (530628821,15);
(530577860,15); (530526901,15); (530475944,15); (530424988,15); (530374035,15); (530323083,15); (530272134,15); (530221186,15);
(530170241,15); (530119297,15); (530068355,15); (530017415,15); (529966477,15); (529915541,15); (529864607,15); (529813675,15);
(529762745,15); (529711817,15); (529660890,15); (529609966,15); (529559044,15); (529508123,15); (529457205,15); (529406288,15);
(529355373,15); (529304461,15); (529253550,15); (529202641,15); (529151734,15); (529100829,15); (529049926,15); (528999025,15);
(528948126,15); (528897228,15); (528846333,15); (528795440,15); (528744548,15); (528693659,15); (528642771,15); (528591885,15);
(528541002,15); (528490120,15); (528439240,15); (528388362,15); (528337486,15); (528286612,15); (528235740,15); (528184870,15);
(528134002,15); (528083136,15); (528032271,15); (527981409,15); (527930548,15); (527879690,15); (527828833,15); (527777978,15);
(527727126,15); (527676275,15); (527625426,15); (527574579,15); (527523734,15); (527472891,15); (527422050,15); (527371211,15);
(527320373,15); (527269538,15); (527218704,15); (527167873,15); (527117043,15); (527066216,15); (527015390,15); (526964566,15);
(526913744,15); (526862925,15); (526812107,15); (526761291,15); (526710476,15); (526659664,15); (526608854,15); (526558046,15);
(526507239,15); (526456435,15); (526405632,15); (526354832,15); (526304033,15); (526253236,15); (526202442,15); (526151649,15);
(526100858,15); (526050069,15); (525999282,15); (525948496,15); (525897713,15); (525846932,15); (525796153,15); (525745375,15);
(525694600,15); (525643826,15); (525593054,15); (525542285,15); (525491517,15); (525440751,15); (525389987,15); (525339225,15);
(525288465,15); (525237707,15); (525186951,15); (525136196,15); (525085444,15); (525034693,15); (524983945,15); (524933198,15);
(524882454,15); (524831711,15); (524780970,15); (524730231,15); (524679494,15); (524628759,15); (524578026,15); (524527295,15);
(524476566,15); (524425838,15); (524375113,15); (524324390,15); (524273668,15); (524222948,15); (524172231,15); (524121515,15);
(524070801,15); (524020089,15); (523969379,15); (523918671,15); (523867965,15); (523817261,15); (523766559,15); (523715858,15);
(523665160,15); (523614463,15); (523563769,15); (523513076,15); (523462385,15); (523411696,15); (523361009,15); (523310325,15);
(523259641,15); (523208960,15); (523158281,15); (523107604,15); (523056929,15); (523006255,15); (522955584,15); (522904914,15);
(522854246,15); (522803581,15); (522752917,15); (522702255,15); (522651595,15); (522600937,15); (522550281,15); (522499626,15);
(522448974,15); (522398324,15); (522347675,15); (522297029,15); (522246384,15); (522195742,15); (522145101,15); (522094462,15);
(522043825,15); (521993190,15); (521942557,15); (521891926,15); (521841297,15); (521790669,15); (521740044,15); (521689420,15);
(521638799,15); (521588179,15); (521537562,15); (521486946,15); (521436332,15); (521385720,15); (521335110,15); (521284502,15);
(521233896,15); (521183291,15); (521132689,15); (521082089,15); (521031490,15); (520980893,15); (520930299,15); (520879706,15);
(520829115,15); (520778526,15); (520727939,15); (520677354,15); (520626771,15); (520576190,15); (520525610,15); (520475033,15);
(520424458,15); (520373884,15); (520323312,15); (520272743,15); (520222175,15); (520171609,15); (520121045,15); (520070483,15);
(520019923,15); (519969364,15); (519918808,15); (519868254,15); (519817701,15); (519767150,15); (519716602,15); (519666055,15);
(519615510,15); (519564967,15); (519514426,15); (519463887,15); (519413350,15); (519362815,15); (519312281,15); (519261750,15);
(519211221,15); (519160693,15); (519110167,15); (519059643,15); (519009122,15); (518958602,15); (518908084,15); (518857568,15);
(518807053,15); (518756541,15); (518706031,15); (518655522,15); (518605016,15); (518554511,15); (518504008,15); (518453508,15);
(518403009,15); (518352512,15); (518302017,15); (518251524,15); (518201032,15); (518150543,15); (518100056,15); (518049570,15);
(517999087,15); (517948605,15); (517898125,15); (517847647,15); (517797171,15); (517746697,15); (517696225,15); (517645755,15);
(517595287,15); (517544820,15); (517494356,15); (517443893,15); (517393433,15); (517342974,15); (517292517,15); (517242062,15);
(517191609,15); (517141158,15); (517090709,15); (517040262,15); (516989816,15); (516939373,15); (516888931,15); (516838492,15);
(516788054,15); (516737618,15); (516687184,15); (516636752,15); (516586322,15); (516535894,15); (516485468,15); (516435043,15);
(516384621,15); (516334200,15); (516283782,15); (516233365,15); (516182950,15); (516132537,15); (516082126,15); (516031717,15);
(515981310,15); (515930905,15); (515880501,15); (515830100,15); (515779700,15); (515729303,15); (515678907,15); (515628513,15);
(515578121,15); (515527731,15); (515477343,15); (515426957,15); (515376573,15); (515326190,15); (515275810,15); (515225431,15);
(515175055,15); (515124680,15); (515074307,15); (515023936,15); (514973567,15); (514923200,15); (514872835,15); (514822471,15);
(514772110,15); (514721750,15); (514671393,15); (514621037,15); (514570683,15); (514520331,15); (514469981,15); (514419633,15);
(514369287,15); (514318943,15); (514268600,15); (514218260,15); (514167921,15); (514117585,15); (514067250,15); (514016917,15);
(513966586,15); (513916257,15); (513865930,15); (513815605,15); (513765281,15); (513714960,15); (513664640,15); (513614323,15);
(513564007,15); (513513693,15); (513463381,15); (513413071,15); (513362763,15); (513312457,15); (513262153,15); (513211850,15);
(513161550,15); (513111251,15); (513060954,15); (513010660,15); (512960367,15); (512910076,15); (512859787,15); (512809499,15);
(512759214,15); (512708931,15); (512658649,15); (512608370,15); (512558092,15); (512507816,15); (512457542,15); (512407270,15);
(512357000,15); (512306732,15); (512256466,15); (512206201,15); (512155939,15); (512105678,15); (512055420,15); (512005163,15);
(511954908,15); (511904655,15); (511854404,15); (511804155,15); (511753907,15); (511703662,15); (511653419,15); (511603177,15);
(511552937,15); (511502699,15); (511452464,15); (511402229,15); (511351997,15); (511301767,15); (511251539,15); (511201312,15);
(511151088,15); (511100865,15); (511050645,15); (511000426,15); (510950209,15); (510899994,15); (510849781,15); (510799569,15);
(510749360,15); (510699153,15); (510648947,15); (510598743,15); (510548542,15); (510498342,15); (510448144,15); (510397948,15);
(510347754,15); (510297561,15); (510247371,15); (510197183,15); (510146996,15); (510096811,15); (510046628,15); (509996448,15);
(509946269,15); (509896091,15); (509845916,15); (509795743,15); (509745572,15); (509695402,15); (509645234,15); (509595069,15);
(509544905,15); (509494743,15); (509444583,15); (509394425,15); (509344268,15); (509294114,15); (509243961,15); (509193811,15);
(509143662,15); (509093515,15); (509043370,15); (508993227,15); (508943086,15); (508892947,15); (508842810,15); (508792674,15);
(508742541,15); (508692409,15); (508642279,15); (508592151,15); (508542025,15); (508491901,15); (508441779,15); (508391659,15);
(508341540,15); (508291424,15); (508241309,15); (508191196,15); (508141086,15); (508090977,15); (508040870,15); (507990764,15);
(507940661,15); (507890560,15); (507840460,15); (507790363,15); (507740267,15); (507690173,15); (507640081,15); (507589991,15);
(507539903,15); (507489817,15); (507439732,15); (507389650,15); (507339569,15); (507289490,15); (507239413,15); (507189339,15);
(507139265,15); (507089194,15); (507039125,15); (506989058,15); (506938992,15); (506888929,15); (506838867,15); (506788807,15);
(506738749,15); (506688693,15); (506638639,15); (506588587,15); (506538536,15); (506488488,15); (506438441,15); (506388396,15);
(506338353,15); (506288313,15); (506238273,15); (506188236,15); (506138201,15); (506088168,15); (506038136,15); (505988106,15);
(505938079,15); (505888053,15); (505838029,15); (505788007,15); (505737987,15); (505687968,15); (505637952,15); (505587937,15);
(505537925,15); (505487914,15); (505437905,15); (505387898,15); (505337893,15); (505287890,15); (505237888,15); (505187889,15);
(505137891,15); (505087895,15); (505037902,15); (504987910,15); (504937920,15); (504887932,15); (504837945,15); (504787961,15);
(504737978,15); (504687998,15); (504638019,15); (504588042,15); (504538067,15); (504488094,15); (504438123,15); (504388154,15);
(504338186,15); (504288221,15); (504238257,15); (504188295,15); (504138335,15); (504088377,15); (504038421,15); (503988467,15);
(503938514,15); (503888564,15); (503838615,15); (503788669,15); (503738724,15); (503688781,15); (503638840,15); (503588900,15);
(503538963,15); (503489028,15); (503439094,15); (503389162,15); (503339233,15); (503289305,15); (503239379,15); (503189455,15);
(503139532,15); (503089612,15); (503039693,15); (502989777,15); (502939862,15); (502889949,15); (502840038,15); (502790129,15);
(502740222,15); (502690316,15); (502640413,15); (502590511,15); (502540612,15); (502490714,15); (502440818,15); (502390924,15);
(502341032,15); (502291141,15); (502241253,15); (502191366,15); (502141482,15); (502091599,15); (502041718,15); (501991839,15);
(501941962,15); (501892086,15); (501842213,15); (501792341,15); (501742472,15); (501692604,15); (501642738,15); (501592874,15);
(501543012,15); (501493152,15); (501443293,15); (501393437,15); (501343582,15); (501293729,15); (501243878,15); (501194029,15);
(501144182,15); (501094337,15); (501044493,15); (500994652,15); (500944812,15); (500894975,15); (500845139,15); (500795305,15);
(500745473,15); (500695642,15); (500645814,15); (500595987,15); (500546163,15); (500496340,15); (500446519,15); (500396700,15);
(500346883,15); (500297068,15); (500247254,15); (500197443,15); (500147633,15); (500097825,15); (500048020,15); (499998216,15);
(499948413,15); (499898613,15); (499848815,15); (499799018,15); (499749224,15); (499699431,15); (499649640,15); (499599851,15);
(499550064,15); (499500278,15); (499450495,15); (499400713,15); (499350934,15); (499301156,15); (499251380,15); (499201606,15);
(499151834,15); (499102064,15); (499052295,15); (499002529,15); (498952764,15); (498903001,15); (498853240,15); (498803481,15);
(498753724,15); (498703968,15); (498654215,15); (498604463,15); (498554714,15); (498504966,15); (498455220,15); (498405476,15);
(498355734,15); (498305993,15); (498256255,15); (498206518,15); (498156783,15); (498107050,15); (498057319,15); (498007590,15);
(497957863,15); (497908138,15); (497858414,15); (497808692,15); (497758973,15); (497709255,15); (497659539,15); (497609824,15);
(497560112,15); (497510402,15); (497460693,15); (497410986,15); (497361281,15); (497311578,15); (497261877,15); (497212178,15);
(497162481,15); (497112785,15); (497063091,15); (497013400,15); (496963710,15); (496914022,15); (496864336,15); (496814651,15);
(496764969,15); (496715288,15); (496665610,15); (496615933,15); (496566258,15); (496516585,15); (496466913,15); (496417244,15);
(496367576,15); (496317911,15); (496268247,15); (496218585,15); (496168925,15); (496119267,15); (496069611,15); (496019956,15);
(495970304,15); (495920653,15); (495871004,15); (495821357,15); (495771712,15); (495722069,15); (495672427,15); (495622788,15)].

(** entries 53248..55295 *)
Definition RECIPROCAL_26 : list (Z * Z) := [
(495573150,15); (495523514,15); (495473880,15); (495424248,15); (495374618,15); (495324990,15); (495275363,15); (495225739,15);
(495176116,15); (495126495,15); (495076876,15); (495027259,15); (494977643,15); (494928030,15); (494878418,15); (494828809,15);
(494779201,15); (494729595,15); (494679991,15); (494630388,15); (494580788,15); (494531190,15); (494481593,15); (494431998,15);
(494382405,15); (494332814,15); (494283225,15); (494233637,15); (494184052,15); (494134468,15); (494084887,15); (494035307,15);
(493985729,15); (493936152,15); (493886578,15); (493837006,15); (493787435,15); (493737866,15); (493688299,15); (493638734,15);
(493589171,15); (493539610,15); (493490050,15); (493440493,15); (493390937,15); (493341383,15); (493291831,15); (493242281,15);
(493192733,15); (493143186,15); (493093642,15); (493044099,15); (492994558,15); (492945019,15); (492895482,15); (492845947,15);
(492796413,15); (492746882,15); (492697352,15); (492647824,15); (492598298,15); (492548774,15); (492499252,15); (492449731,15);
(492400213,15); (492350696,15); (492301181,15); (492251668,15); (492202157,15); (492152648,15); (492103140,15); (492053635,15);
(492004131,15); (491954629,15); (491905129,15); (491855631,15); (491806135,15); (491756640,15); (491707148,15); (491657657,15);
(491608168,15); (491558681,15); (491509196,15); (491459713,15); (491410232,15); (491360752,15); (491311274,15); (491261798,15);
(491212324,15); (491162852,15); (491113382,15); (491063913,15); (491014447,15); (490964982,15); (490915519,15); (490866058,15);
(490816599,15); (490767142,15); (490717686,15); (490668233,15); (490618781,15); (490569331,15); (490519883,15); (490470437,15);
(490420993,15); (490371550,15); (490322109,15); (490272671,15); (490223234,15); (490173799,15); (490124365,15); (490074934,15);
(490025505,15); (489976077,15); (489926651,15); (489877227,15); (489827805,15); (489778385,15); (489728966,15); (489679550,15);
(489630135,15); (489580722,15); (489531311,15); (489481902,15); (489432495,15); (489383090,15); (489333686,15); (489284284,15);
(489234884,15); (489185486,15); (489136090,15); (489086696,15); (489037303,15); (488987913,15); (488938524,15); (488889137,15);
(488839752,15); (488790369,15); (488740987,15); (488691608,15); (488642230,15); (488592854,15); (488543480,15); (488494108,15);
(488444738,15); (488395370,15); (488346003,15); (488296638,15); (488247275,15); (488197914,15); (488148555,15); (488099198,15);
(488049842,15); (488000489,15); (487951137,15); (487901787,15); (487852439,15); (487803093,15); (487753748,15); (487704406,15);
(487655065,15); (487605726,15); (487556389,15); (487507054,15); (487457721,15); (487408389,15); (487359060,15); (487309732,15);
(487260406,15); (487211082,15); (487161760,15); (487112439,15); (487063121,15); (487013804,15); (486964489,15); (486915176,15);
(486865865,15); (486816556,15); (486767248,15); (486717943,15); (486668639,15); (486619337,15); (486570037,15); (486520739,15);
(486471442,15); (486422148,15); (486372855,15); (486323564,15); (486274275,15); (486224988,15); (486175703,15); (486126419,15);
(486077138,15); (486027858,15); (485978580,15); (485929304,15); (485880030,15); (485830757,15); (485781487,15); (485732218,15);
(485682951,15); (485633686,15); (485584423,15); (485535161,15); (485485902,15); (485436644,15); (485387388,15); (485338134,15);
(485288882,15); (485239632,15); (485190384,15); (485141137,15); (485091892,15); (485042649,15); (484993408,15); (484944169,15);
(484894932,15); (484845696,15); (484796462,15); (484747231,15); (484698001,15); (484648772,15); (484599546,15); (484550321,15);
(484501099,15); (484451878,15); (484402659,15); (484353442,15); (484304227,15); (484255013,15); (484205802,15); (484156592,15);
(484107384,15); (484058178,15); (484008973,15); (483959771,15); (483910570,15); (483861372,15); (483812175,15); (483762980,15);
(483713787,15); (483664595,15); (483615406,15); (483566218,15); (483517032,15); (483467848,15); (483418666,15); (483369486,15);
(483320307,15); (483271130,15); (483221956,15); (483172783,15); (483123611,15); (483074442,15); (483025275,15); (482976109,15);
(482926945,15); (482877783,15); (482828623,15); (482779465,15); (482730308,15); (482681154,15); (482632001,15); (482582850,15);
(482533701,15); (482484554,15); (482435408,15); (482386265,15); (482337123,15); (482287983,15); (482238845,15); (482189709,15);
(482140574,15); (482091442,15); (482042311,15); (481993182,15); (481944055,15); (481894930,15); (481845807,15); (481796685,15);
(481747565,15); (481698447,15); (481649331,15); (481600217,15); (481551105,15); (481501994,15); (481452885,15); (481403779,15);
(481354674,15); (481305570,15); (481256469,15); (481207369,15); (481158272,15); (481109176,15); (481060082,15); (481010990,15);
(480961899,15); (480912811,15); (480863724,15); (480814639,15); (480765556,15); (480716475,15); (480667396,15); (480618318,15);
(480569242,15); (480520168,15); (480471096,15); (480422026,15); (480372958,15); (480323891,15); (480274827,15); (480225764,15);
(480176703,15); (480127643,15); (480078586,15); (480029531,15); (479980477,15); (479931425,15); (479882375,15); (479833327,15);
(479784280,15); (479735236,15); (479686193,15); (479637152,15); (479588113,15); (479539076,15); (479490040,15); (479441007,15);
(479391975,15); (479342945,15); (479293917,15); (479244891,15); (479195866,15); (479146844,15); (479097823,15); (479048804,15);
(478999787,15); (478950772,15); (478901758,15); (478852747,15); (478803737,15); (478754729,15); (478705723,15); (478656719,15);
(478607716,15); (478558715,15); (478509717,15); (478460720,15); (478411724,15); (478362731,15); (478313740,15); (478264750,15);
(478215762,15); (478166776,15); (478117792,15); (478068810,15); (478019829,15); (477970850,15); (477921873,15); (477872898,15);
(477823925,15); (477774954,15); (477725984,15); (477677016,15); (477628051,15); (477579086,15); (477530124,15); (477481164,15);
(477432205,15); (477383248,15); (477334293,15); (477285340,15); (477236389,15); (477187439,15); (477138492,15); (477089546,15);
(477040602,15); (476991660,15); (476942719,15); (476893781,15); (476844844,15); (476795909,15); (476746976,15); (476698045,15);
(476649116,15); (476600188,15); (476551262,15); (476502338,15); (476453416,15); (476404496,15); (476355578,15); (476306661,15);
(476257746,15); (476208833,15); (476159922,15); (476111013,15); (476062105,15); (476013199,15); (475964296,15); (475915394,15);
(475866493,15); (475817595,15); (475768698,15); (475719804,15); (475670911,15); (475622020,15); (475573130,15); (475524243,15);
(475475357,15); (475426473,15); (475377591,15); (475328711,15); (475279833,15); (475230956,15); (475182082,15); (475133209,15);
(475084338,15); (475035468,15); (474986601,15); (474937735,15); (474888872,15); (474840010,15); (474791150,15); (474742291,15);
(474693435,15); (474644580,15); (474595727,15); (474546876,15); (474498027,15); (474449180,15); (474400334,15); (474351490,15);
(474302648,15); (474253808,15); (474204970,15); (474156133,15); (474107299,15); (474058466,15); (474009635,15); (473960806,15);
(473911978,15); (473863153,15); (473814329,15); (473765507,15); (473716687,15); (473667869,15); (473619052,15); (473570238,15);
(473521425,15); (473472614,15); (473423804,15); (473374997,15); (473326192,15); (473277388,15); (473228586,15); (473179786,15);
(473130987,15); (473082191,15); (473033396,15); (472984603,15); (472935812,15); (472887023,15); (472838236,15); (472789450,15);
(472740667,15); (472691885,15); (472643104,15); (472594326,15); (472545550,15); (472496775,15); (472448002,15); (472399231,15);
(472350462,15); (472301694,15); (472252929,15); (472204165,15); (472155403,15); (472106643,15); (472057885,15); (472009128,15);
(471960373,15); (471911621,15); (471862869,15); (471814120,15); (471765373,15); (471716627,15); (471667883,15); (471619141,15);
(471570401,15); (471521663,15); (471472926,15); (471424191,15); (471375458,15); (471326727,15); (471277998,15); (471229271,15);
(471180545,15); (471131821,15); (471083099,15); (471034379,15); (470985660,15); (470936944,15); (470888229,15); (470839516,15);
(470790805,15); (470742095,15); (470693388,15); (470644682,15); (470595978,15); (470547276,15); (470498576,15); (470449877,15);
(470401181,15); (470352486,15); (470303793,15); (470255101,15); (470206412,15); (470157724,15); (470109038,15); (470060354,15);
(470011672,15); (469962992,15); (469914313,15); (469865637,15); (469816962,15); (469768289,15); (469719617,15); (469670948,15);
(469622280,15); (469573614,15); (469524950,15); (469476288,15); (469427627,15); (469378969,15); (469330312,15); (469281657,15);
(469233003,15); (469184352,15); (469135702,15); (469087055,15); (469038409,15); (468989764,15); (468941122,15); (468892482,15);
(468843843,15); (468795206,15); (468746571,15); (468697937,15); (468649306,15); (468600676,15); (468552048,15); (468503422,15);
(468454798,15); (468406175,15); (468357555,15); (468308936,15); (468260319,15); (468211703,15); (468163090,15); (468114478,15);
(468065868,15); (468017260,15); (467968654,15); (467920050,15); (467871447,15); (467822846,15); (467774247,15); (467725650,15);
(467677055,15); (467628461,15); (467579869,15); (467531279,15); (467482691,15); (467434105,15); (467385520,15); (467336938,15);
(467288357,15); (467239778,15); (467191200,15); (467142625,15); (467094051,15); (467045479,15); (466996909,15); (466948341,15);
(466899774,15); (466851209,15); (466802647,15); (466754085,15); (466705526,15); (466656969,15); (466608413,15); (466559859,15);
(466511307,15); (466462757,15); (466414208,15); (466365662,15); (466317117,15); (466268574,15); (466220033,15); (466171493,15);
(466122955,15); (466074420,15); (466025886,15); (465977353,15); (465928823,15); (465880294,15); (465831767,15); (465783242,15);
(465734719,15); (465686198,15); (465637678,15); (465589160,15); (465540644,15); (465492130,15); (465443618,15); (465395107,15);
(465346598,15); (465298091,15); (465249586,15); (465201083,15); (465152581,15); (465104081,15); (465055583,15); (465007087,15);
(464958593,15); (464910100,15); (464861609,15); (464813120,15); (464764633,15); (464716148,15); (464667664,15); (464619182,15);
(464570702,15); (464522224,15); (464473747,15); (464425273,15); (464376800,15); (464328329,15); (464279860,15); (464231392,15);
(464182927,15); (464134463,15); (464086001,15); (464037541,15); (463989082,15); (463940626,15); (463892171,15); (463843718,15);
(463795267,15); (463746817,15); (463698370,15); (463649924,15); (463601480,15); (463553037,15); (463504597,15); (463456158,15);
(463407722,15); (463359286,15); (463310853,15); (463262422,15); (463213992,15); (463165564,15); (463117138,15); (463068714,15);
(463020291,15); (462971871,15); (462923452,15); (462875035,15); (462826619,15); (462778206,15); (462729794,15); (462681384,15);
(462632976,15); (462584570,15); (462536165,15); (462487763,15); (462439362,15); (462390963,15); (462342565,15); (462294170,15);
(462245776,15); (462197384,15); (462148994,15); (462100606,15); (462052219,15); (462003834,15); (461955451,15); (461907070,15);
(461858691,15); (461810313,15); (461761937,15); (461713563,15); (461665191,15); (461616821,15); (461568452,15); (461520085,15);
(461471720,15); (461423357,15); (461374996,15); (461326636,15); (461278278,15); (461229922,15); (461181568,15); (461133215,15);
(461084864,15); (461036516,15); (460988168,15); (460939823,15); (460891480,15); (460843138,15); (460794798,15); (460746460,15);
(460698123,15); (460649789,15); (460601456,15); (460553125,15); (460504796,15); (460456468,15); (460408143,15); (460359819,15);
(460311497,15); (460263177,15); (460214858,15); (460166542,15); (460118227,15); (460069914,15); (460021602,15); (459973293,15);
(459924985,15); (459876679,15); (459828375,15); (459780073,15); (459731772,15); (459683473,15); (459635176,15); (459586881,15);
(459538588,15); (459490296,15); (459442006,15); (459393718,15); (459345432,15); (459297148,15); (459248865,15); (459200584,15);
(459152305,15); (459104028,15); (459055752,15); (459007479,15); (458959207,15); (458910937,15); (458862668,15); (458814402,15);
(458766137,15); (458717874,15); (458669613,15); (458621353,15); (458573096,15); (458524840,15); (458476586,15); (458428333,15);
(458380083,15); (458331834,15); (458283587,15); (458235342,15); (458187099,15); (458138857,15); (458090618,15); (458042380,15);
(457994143,15); (457945909,15); (457897676,15); (457849446,15); (457801217,15); (457752989,15); (457704764,15); (457656540,15);
(457608318,15); (457560098,15); (457511880,15); (457463663,15); (457415448,15); (457367235,15); (457319024,15); (457270815,15);
(457222607,15); (457174401,15); (457126197,15); (457077995,15); (457029795,15); (456981596,15); (456933399,15); (456885204,15);
(456837010,15); (456788819,15); (456740629,15); (456692441,15); (456644255,15); (456596070,15); (456547888,15); (456499707,15);
(456451528,15); (456403351,15); (456355175,15); (456307001,15); (456258829,15); (456210659,15); (456162491,15); (456114324,15);
(456066159,15); (456017996,15); (455969835,15); (455921675,15); (455873518,15); (455825362,15); (455777208,15); (455729055,15);
(455680905,15); (455632756,15); (455584609,15); (455536464,15); (455488320,15); (455440179,15); (455392039,15); (455343901,15);
(455295764,15); (455247630,15); (455199497,15); (455151366,15); (455103237,15); (455055109,15); (455006984,15); (454958860,15);
(454910738,15); (454862617,15); (454814499,15); (454766382,15); (454718267,15); (454670154,15); (454622043,15); (454573933,15);
(454525825,15); (454477719,15); (454429615,15); (454381512,15); (454333411,15); (454285313,15); (454237215,15); (454189120,15);
(454141026,15); (454092934,15); (454044844,15); (453996756,15); (453948670,15); (453900585,15); (453852502,15); (453804421,15);
(453756341,15); (453708264,15); (453660188,15); (453612114,15); (453564041,15); (453515971,15); (453467902,15); (453419835,15);
(453371770,15); (453323707,15); (453275645,15); (453227585,15); (453179527,15); (453131471,15); (453083416,15); (453035363,15);
(452987313,15); (452939263,15); (452891216,15); (452843170,15); (452795126,15); (452747084,15); (452699044,15); (452651005,15);
(452602969,15); (452554934,15); (452506900,15); (452458869,15); (452410839,15); (452362811,15); (452314785,15); (452266761,15);
(452218738,15); (452170717,15); (452122698,15); (452074681,15); (452026666,15); (451978652,15); (451930640,15); (451882630,15);
(451834621,15); (451786615,15); (451738610,15); (451690607,15); (451642606,15); (451594606,15); (451546608,15); (451498612,15);
(451450618,15); (451402626,15); (451354635,15); (451306646,15); (451258659,15); (451210674,15); (451162690,15); (451114708,15);
(451066728,15); (451018750,15); (450970774,15); (450922799,15); (450874826,15); (450826855,15); (450778885,15); (450730918,15);
(450682952,15); (450634988,15); (450587025,15); (450539065,15); (450491106,15); (450443149,15); (450395194,15); (450347240,15);
(450299289,15); (450251339,15); (450203391,15); (450155444,15); (450107500,15); (450059557,15); (450011616,15); (449963676,15);
(449915739,15); (449867803,15); (449819869,15); (449771937,15); (449724007,15); (449676078,15); (449628151,15); (449580226,15);
(449532302,15); (449484381,15); (449436461,15); (449388543,15); (449340627,15); (449292712,15); (449244799,15); (449196888,15);
(449148979,15); (449101072,15); (449053166,15); (449005262,15); (448957360,15); (448909459,15); (448861561,15); (448813664,15);
(448765769,15); (448717875,15); (448669984,15); (448622094,15); (448574206,15); (448526320,15); (448478435,15); (448430553,15);
(448382672,15); (448334792,15); (448286915,15); (448239039,15); (448191165,15); (448143293,15); (448095423,15); (448047554,15);
(447999687,15); (447951822,15); (447903959,15); (447856098,15); (447808238,15); (447760380,15); (447712524,15); (447664669,15);
(447616816,15); (447568965,15); (447521116,15); (447473269,15); (447425423,15); (447377579,15); (447329737,15); (447281897,15);
(447234058,15); (447186221,15); (447138386,15); (447090553,15); (447042721,15); (446994892,15); (446947064,15); (446899237,15);
(446851413,15); (446803590,15); (446755769,15); (446707950,15); (446660133,15); (446612317,15); (446564503,15); (446516691,15);
(446468880,15); (446421072,15); (446373265,15); (446325460,15); (446277657,15); (446229855,15); (446182055,15); (446134257,15);
(446086461,15); (446038666,15); (445990873,15); (445943082,15); (445895293,15); (445847506,15); (445799720,15); (445751936,15);
(445704154,15); (445656373,15); (445608595,15); (445560818,15); (445513043,15); (445465269,15); (445417498,15); (445369728,15);
(445321960,15); (445274193,15); (445226429,15); (445178666,15); (445130905,15); (445083145,15); (445035388,15); (444987632,15);
(444939878,15); (444892126,15); (444844375,15); (444796626,15); (444748879,15); (444701134,15); (444653391,15); (444605649,15);
(444557909,15); (444510171,15); (444462434,15); (444414700,15); (444366967,15); (444319236,15); (444271506,15); (444223779,15);
(444176053,15); (444128328,15); (444080606,15); (444032885,15); (443985167,15); (443937449,15); (443889734,15); (443842021,15);
(443794309,15); (443746599,15); (443698890,15); (443651184,15); (443603479,15); (443555776,15); (443508074,15); (443460375,15);
(443412677,15); (443364981,15); (443317287,15); (443269594,15); (443221904,15); (443174215,15); (443126527,15); (443078842,15);
(443031158,15); (442983476,15); (442935796,15); (442888117,15); (442840441,15); (442792766,15); (442745092,15); (442697421,15);
(442649751,15); (442602083,15); (442554417,15); (442506753,15); (442459090,15); (442411429,15); (442363770,15); (442316112,15);
(442268457,15); (442220803,15); (442173151,15); (442125500,15); (442077852,15); (442030205,15); (441982560,15); (441934916,15);
(441887275,15); (441839635,15); (441791997,15); (441744360,15); (441696726,15); (441649093,15); (441601462,15); (441553832,15);
(441506205,15); (441458579,15); (441410955,15); (441363332,15); (441315712,15); (441268093,15); (441220476,15); (441172860,15);
(441125247,15); (441077635,15); (441030025,15); (440982416,15); (440934810,15); (440887205,15); (440839602,15); (440792000,15);
(440744401,15); (440696803,15); (440649207,15); (440601613,15); (440554020,15); (440506429,15); (440458840,15); (440411253,15);
(440363667,15); (440316083,15); (440268501,15); (440220921,15); (440173342,15); (440125765,15); (440078190,15); (440030617,15);
(439983045,15); (439935475,15); (439887907,15); (439840341,15); (439792776,15); (439745214,15); (439697652,15); (439650093,15);
(439602536,15); (439554980,15); (439507426,15); (439459873,15); (439412323,15); (439364774,15); (439317227,15); (439269681,15);
(439222138,15); (439174596,15); (439127056,15); (439079517,15); (439031981,15); (438984446,15); (438936913,15); (438889381,15);
(438841852,15); (438794324,15); (438746797,15); (438699273,15); (438651750,15); (438604230,15); (438556710,15); (438509193,15);
(438461677,15); (438414163,15); (438366651,15); (438319141,15); (438271632,15); (438224125,15); (438176620,15); (438129116,15);
(438081615,15); (438034115,15); (437986617,15); (437939120,15); (437891625,15); (437844132,15); (437796641,15); (437749152,15);
(437701664,15); (437654178,15); (437606694,15); (437559211,15); (437511730,15); (437464251,15); (437416774,15); (437369299,15);
(437321825,15); (437274353,15); (437226882,15); (437179414,15); (437131947,15); (437084482,15); (437037019,15); (436989557,15);
(436942097,15); (436894639,15); (436847183,15); (436799728,15); (436752275,15); (436704824,15); (436657375,15); (436609927,15);
(436562481,15); (436515037,15); (436467595,15); (436420154,15); (436372715,15); (436325278,15); (436277842,15); (436230409,15);
(436182977,15); (436135547,15); (436088118,15); (436040691,15); (435993266,15); (435945843,15); (435898422,15); (435851002,15);
(435803584,15); (435756167,15); (435708753,15); (435661340,15); (435613929,15); (435566520,15); (435519112,15); (435471706,15);
(435424302,15); (435376900,15); (435329499,15); (435282100,15); (435234703,15); (435187308,15); (435139914,15); (435092522,15);
(435045132,15); (434997743,15); (434950357,15); (434902972,15); (434855588,15); (434808207,15); (434760827,15); (434713449,15);
(434666073,15); (434618698,15); (434571325,15); (434523954,15); (434476585,15); (434429217,15); (434381852,15); (434334487,15);
(434287125,15); (434239764,15); (434192406,15); (434145048,15); (434097693,15); (434050339,15); (434002987,15); (433955637,15);
(433908289,15); (433860942,15); (433813597,15); (433766254,15); (433718912,15); (433671572,15); (433624234,15); (433576898,15);
(433529563,15); (433482230,15); (433434899,15); (433387570,15); (433340242,15); (433292916,15); (433245592,15); (433198270,15);
(433150949,15); (433103630,15); (433056313,15); (433008997,15); (432961684,15); (432914372,15); (432867061,15); (432819753,15);
(432772446,15); (432725141,15); (432677837,15); (432630536,15); (432583236,15); (432535938,15); (432488641,15); (432441347,15);
(432394054,15); (432346762,15); (432299473,15); (432252185,15); (432204899,15); (432157615,15); (432110332,15); (432063052,15);
(432015773,15); (431968495,15); (431921220,15); (431873946,15); (431826674,15); (431779403,15); (431732134,15); (431684867,15);
(431637602,15); (431590339,15); (431543077,15); (431495817,15); (431448559,15); (431401302,15); (431354047,15); (431306794,15);
(431259543,15); (431212293,15); (431165045,15); (431117799,15); (431070555,15); (431023312,15); (430976071,15); (430928832,15);
(430881594,15); (430834358,15); (430787124,15); (430739892,15); (430692661,15); (430645433,15); (430598206,15); (430550980,15);
(430503756,15); (430456534,15); (430409314,15); (430362096,15); (430314879,15); (430267664,15); (430220451,15); (430173239,15);
(430126029,15); (430078821,15); (430031615,15); (429984410,15); (429937207,15); (429890006,15); (429842807,15); (429795609,15);
(429748413,15); (429701219,15); (429654026,15); (429606835,15); (429559646,15); (429512459,15); (429465273,15); (429418089,15);
(429370907,15); (429323727,15); (429276548,15); (429229371,15); (429182196,15); (429135022,15); (429087850,15); (429040680,15);
(428993512,15); (428946345,15); (428899180,15); (428852017,15); (428804856,15); (428757696,15); (428710538,15); (428663382,15);
(428616227,15); (428569074,15); (428521923,15); (428474774,15); (428427626,15); (428380480,15); (428333336,15); (428286194,15);
(428239053,15); (428191914,15); (428144777,15); (428097641,15); (428050507,15); (428003375,15); (427956245,15); (427909116,15);
(427861989,15); (427814864,15); (427767741,15); (427720619,15); (427673499,15); (427626380,15); (427579264,15); (427532149,15);
(427485036,15); (427437924,15); (427390815,15); (427343707,15); (427296600,15); (427249496,15); (427202393,15); (427155292,15);
(427108193,15); (427061095,15); (427013999,15); (426966905,15); (426919813,15); (426872722,15); (426825633,15); (426778546,15);
(426731460,15); (426684376,15); (426637294,15); (426590214,15); (426543135,15); (426496058,15); (426448983,15); (426401909,15);
(426354837,15); (426307767,15); (426260699,15); (426213632,15); (426166567,15); (426119504,15); (426072443,15); (426025383,15);
(425978325,15); (425931269,15); (425884214,15); (425837161,15); (425790110,15); (425743061,15); (425696013,15); (425648967,15);
(425601923,15); (425554880,15); (425507839,15); (425460800,15); (425413763,15); (425366727,15); (425319693,15); (425272661,15);
(425225631,15); (425178602,15); (425131575,15); (425084550,15); (425037526,15); (424990504,15); (424943484,15); (424896465,15);
(424849449,15); (424802434,15); (424755420,15); (424708409,15); (424661399,15); (424614391,15); (424567384,15); (424520380,15);
(424473377,15); (424426375,15); (424379376,15); (424332378,15); (424285382,15); (424238387,15); (424191395,15); (424144404,15);
(424097414,15); (424050427,15); (424003441,15); (423956457,15); (423909475,15); (423862494,15); (423815515,15); (423768538,15);
(423721562,15); (423674588,15); (423627616,15); (423580646,15); (423533677,15); (423486710,15); (423439745,15); (423392782,15);
(423345820,15); (423298860,15); (423251901,15); (423204945,15); (423157990,15); (423111037,15); (423064085,15); (423017135,15);
(422970187,15); (422923241,15); (422876296,15); (422829353,15); (422782412,15); (422735473,15); (422688535,15); (422641599,15);
(422594664,15); (422547732,15); (422500801,15); (422453872,15); (422406944,15); (422360018,15); (422313094,15); (422266172,15);
(422219251,15); (422172332,15); (422125415,15); (422078500,15); (422031586,15); (421984674,15); (421937763,15); (421890855,15);
(421843948,15); (421797042,15); (421750139,15); (421703237,15); (421656337,15); (421609439,15); (421562542,15); (421515647,15);
(421468754,15); (421421862,15); (421374973,15); (421328084,15); (421281198,15); (421234313,15); (421187430,15); (421140549,15);
(421093670,15); (421046792,15); (420999916,15); (420953041,15); (420906168,15); (420859297,15); (420812428,15); (420765561,15);
(420718695,15); (420671831,15); (420624968,15); (420578107,15); (420531248,15); (420484391,15); (420437535,15); (420390682,15);
(420343829,15); (420296979,15); (420250130,15); (420203283,15); (420156438,15); (420109594,15); (420062752,15); (420015912,15);
(419969074,15); (419922237,15); (419875402,15); (419828568,15); (419781737,15); (419734907,15); (419688078,15); (419641252,15);
(419594427,15); (419547604,15); (419500782,15); (419453963,15); (419407145,15); (419360328,15); (419313514,15); (419266701,15);
(419219890,15); (419173080,15); (419126273,15); (419079466,15); (419032662,15); (418985859,15); (418939059,15); (418892259,15);
(418845462,15); (418798666,15); (418751872,15); (418705080,15); (418658289,15); (418611500,15); (418564713,15); (418517927,15);
(418471143,15); (418424361,15); (418377580,15); (418330802,15); (418284025,15); (418237249,15); (418190476,15); (418143704,15);
(418096934,15); (418050165,15); (418003398,15); (417956633,15); (417909870,15); (417863108,15); (417816348,15); (417769590,15);
(417722833,15); (417676078,15); (417629325,15); (417582574,15); (417535824,15); (417489076,15); (417442329,15); (417395585,15);
(417348842,15); (417302101,15); (417255361,15); (417208623,15); (417161887,15); (417115153,15); (417068420,15); (417021689,15);
(416974960,15); (416928232,15); (416881506,15); (416834782,15); (416788059,15); (416741338,15); (416694619,15); (416647902,15);
(416601186,15); (416554472,15); (416507760,15); (416461049,15); (416414340,15); (416367633,15); (416320928,15); (416274224,15);
(416227522,15); (416180822,15); (416134123,15); (416087426,15); (416040731,15); (415994037,15); (415947345,15); (415900655,15);
(415853966,15); (415807280,15); (415760595,15); (415713911,15); (415667230,15); (415620550,15); (415573871,15); (415527195,15);
(415480520,15); (415433847,15); (415387175,15); (415340505,15); (415293837,15); (415247171,15); (415200506,15); (415153843,15);
(415107182,15); (415060522,15); (415013865,15); (414967208,15); (414920554,15); (414873901,15); (414827250,15); (414780601,15);
(414733953,15); (414687307,15); (414640663,15); (414594020,15); (414547379,15); (414500740,15); (414454102,15); (414407467,15);
(414360833,15); (414314200,15); (414267569,15); (414220940,15); (414174313,15); (414127687,15); (414081064,15); (414034441,15);
(413987821,15); (413941202,15); (413894585,15); (413847969,15); (413801356,15); (413754744,15); (413708133,15); (413661525,15);
(413614918,15); (413568312,15); (413521709,15); (413475107,15); (413428507,15); (413381908,15); (413335312,15); (413288717,15);
(413242123,15); (413195531,15); (413148941,15); (413102353,15); (413055767,15); (413009182,15); (412962598,15); (412916017,15);
(412869437,15); (412822859,15); (412776283,15); (412729708,15); (412683135,15); (412636563,15); (412589994,15); (412543426,15);
(412496860,15); (412450295,15); (412403732,15); (412357171,15); (412310611,15); (412264054,15); (412217498,15); (412170943,15);
(412124390,15); (412077839,15); (412031290,15); (411984742,15); (411938196,15); (411891652,15); (411845110,15); (411798569,15);
(411752030,15); (411705492,15); (411658956,15); (411612422,15); (411565890,15); (411519359,15); (411472830,15); (411426303,15);
(411379777,15); (411333253,15); (411286731,15); (411240210,15); (411193692,15); (411147174,15); (411100659,15); (411054145,15);
(411007633,15); (410961123,15); (410914614,15); (410868107,15); (410821601,15); (410775098,15); (410728596,15); (410682096,15);
(410635597,15); (410589100,15); (410542605,15); (410496111,15); (410449620,15); (410403129,15); (410356641,15); (410310154,15);
(410263669,15); (410217186,15); (410170704,15); (410124224,15); (410077746,15); (410031269,15); (409984794,15); (409938321,15);
(409891850,15); (409845380,15); (409798912,15); (409752445,15); (409705980,15); (409659517,15); (409613056,15); (409566596,15);
(409520138,15); (409473682,15); (409427227,15); (409380774,15); (409334323,15); (409287873,15); (409241425,15); (409194979,15);
(409148535,15); (409102092,15); (409055651,15); (409009211,15); (408962773,15); (408916337,15); (408869903,15); (408823470,15);
(408777039,15); (408730610,15); (408684182,15); (408637756,15); (408591332,15); (408544909,15); (408498488,15); (408452069,15);
(408405651,15); (408359236,15); (408312821,15); (408266409,15); (408219998,15); (408173589,15); (408127182,15); (408080776,15);
(408034372,15); (407987969,15); (407941569,15); (407895170,15); (407848772,15); (407802377,15); (407755983,15); (407709590,15);
(407663200,15); (407616811,15); (407570424,15); (407524038,15); (407477654,15); (407431272,15); (407384892,15); (407338513,15);
(407292136,15); (407245760,15); (407199387,15); (407153015,15); (407106644,15); (407060276,15); (407013909,15); (406967543,15);
(406921180,15); (406874818,15); (406828457,15); (406782099,15); (406735742,15); (406689387,15); (406643033,15); (406596681,15);
(406550331,15); (406503983,15); (406457636,15); (406411291,15); (406364947,15); (406318605,15); (406272265,15); (406225927,15);
(406179590,15); (406133255,15); (406086922,15); (406040590,15); (405994260,15); (405947932,15); (405901605,15); (405855280,15);
(405808957,15); (405762635,15); (405716315,15); (405669997,15); (405623681,15); (405577366,15); (405531053,15); (405484741,15);
(405438431,15); (405392123,15); (405345817,15); (405299512,15); (405253209,15); (405206907,15); (405160608,15); (405114309,15);
(405068013,15); (405021718,15); (404975425,15); (404929134,15); (404882844,15); (404836556,15); (404790270,15); (404743985,15);
(404697702,15); (404651421,15); (404605141,15); (404558864,15); (404512587,15); (404466313,15); (404420040,15); (404373769,15);
(404327499,15); (404281231,15); (404234965,15); (404188701,15); (404142438,15); (404096177,15); (404049917,15); (404003659,15);
(403957403,15); (403911149,15); (403864896,15); (403818645,15); (403772395,15); (403726148,15); (403679902,15); (403633657,15);
(403587415,15); (403541174,15); (403494934,15); (403448697,15); (403402461,15); (403356226,15); (403309994,15); (403263763,15);
(403217533,15); (403171306,15); (403125080,15); (403078856,15); (403032633,15); (402986412,15); (402940193,15); (402893975,15);
(402847759,15); (402801545,15); (402755333,15); (402709122,15); (402662913,15); (402616705,15); (402570499,15); (402524295,15);
(402478093,15); (402431892,15); (402385693,15); (402339495,15); (402293299,15); (402247105,15); (402200913,15); (402154722,15);
(402108533,15); (402062345,15); (402016160,15); (401969976,15); (401923793,15); (401877612,15); (401831433,15); (401785256,15);
(401739080,15); (401692906,15); (401646734,15); (401600563,15); (401554394,15); (401508227,15); (401462061,15); (401415897,15);
(401369735,15); (401323574,15); (401277415,15); (401231258,15); (401185102,15); (401138948,15); (401092796,15); (401046645,15);
(401000496,15); (400954349,15); (400908203,15); (400862059,15); (400815917,15); (400769777,15); (400723638,15); (400677500,15);
(400631365,15); (400585231,15); (400539099,15); (400492968,15); (400446839,15); (400400712,15); (400354586,15); (400308462,15);
(400262340,15); (400216220,15); (400170101,15); (400123983,15); (400077868,15); (400031754,15); (399985642,15); (399939531,15);
(399893422,15); (399847315,15); (399801210,15); (399755106,15); (399709004,15); (399662903,15); (399616804,15); (399570707,15);
(399524611,15); (399478518,15); (399432425,15); (399386335,15); (399340246,15); (399294159,15); (399248073,15); (399201989,15);
(399155907,15); (399109827,15); (399063748,15); (399017671,15); (398971595,15); (398925521,15); (398879449,15); (398833379,15);
(398787310,15); (398741243,15); (398695177,15); (398649113,15); (398603051,15); (398556991,15); (398510932,15); (398464875,15);
(398418819,15); (398372765,15); (398326713,15); (398280663,15); (398234614,15); (398188567,15); (398142521,15); (398096477,15);
(398050435,15); (398004395,15); (397958356,15); (397912318,15); (397866283,15); (397820249,15); (397774217,15); (397728186,15)].

(** entries 55296..57343 *)
Definition RECIPROCAL_27 : list (Z * Z) := [
(397682158,15); (397636130,15); (397590105,15); (397544081,15); (397498059,15); (397452038,15); (397406019,15); (397360002,15);
(397313987,15); (397267973,15); (397221960,15); (397175950,15); (397129941,15); (397083934,15); (397037928,15); (396991924,15);
(396945922,15); (396899922,15); (396853923,15); (396807925,15); (396761930,15); (396715936,15); (396669944,15); (396623953,15);
(396577964,15); (396531977,15); (396485991,15); (396440007,15); (396394025,15); (396348044,15); (396302065,15); (396256088,15);
(396210113,15); (396164139,15); (396118166,15); (396072196,15); (396026227,15); (395980259,15); (395934294,15); (395888330,15);
(395842367,15); (395796407,15); (395750448,15); (395704490,15); (395658535,15); (395612581,15); (395566628,15); (395520677,15);
(395474728,15); (395428781,15); (395382835,15); (395336891,15); (395290949,15); (395245008,15); (395199069,15); (395153132,15);
(395107196,15); (395061262,15); (395015329,15); (394969398,15); (394923469,15); (394877542,15); (394831616,15); (394785692,15);
(394739769,15); (394693848,15); (394647929,15); (394602012,15); (394556096,15); (394510182,15); (394464269,15); (394418358,15);
(394372449,15); (394326542,15); (394280636,15); (394234731,15); (394188829,15); (394142928,15); (394097029,15); (394051131,15);
(394005235,15); (393959341,15); (393913448,15); (393867557,15); (393821668,15); (393775780,15); (393729894,15); (393684010,15);
(393638127,15); (393592246,15); (393546366,15); (393500489,15); (393454613,15); (393408738,15); (393362866,15); (393316994,15);
(393271125,15); (393225257,15); (393179391,15); (393133527,15); (393087664,15); (393041803,15); (392995943,15); (392950085,15);
(392904229,15); (392858374,15); (392812522,15); (392766670,15); (392720821,15); (392674973,15); (392629126,15); (392583282,15);
(392537439,15); (392491598,15); (392445758,15); (392399920,15); (392354084,15); (392308249,15); (392262416,15); (392216584,15);
(392170755,15); (392124927,15); (392079100,15); (392033275,15); (391987452,15); (391941631,15); (391895811,15); (391849993,15);
(391804176,15); (391758362,15); (391712548,15); (391666737,15); (391620927,15); (391575119,15); (391529312,15); (391483507,15);
(391437704,15); (391391902,15); (391346102,15); (391300304,15); (391254507,15); (391208712,15); (391162919,15); (391117127,15);
(391071337,15); (391025549,15); (390979762,15); (390933977,15); (390888194,15); (390842412,15); (390796632,15); (390750853,15);
(390705076,15); (390659301,15); (390613528,15); (390567756,15); (390521985,15); (390476217,15); (390430450,15); (390384685,15);
(390338921,15); (390293159,15); (390247399,15); (390201640,15); (390155883,15); (390110128,15); (390064374,15); (390018622,15);
(389972871,15); (389927122,15); (389881375,15); (389835630,15); (389789886,15); (389744144,15); (389698403,15); (389652664,15);
(389606927,15); (389561192,15); (389515458,15); (389469725,15); (389423995,15); (389378266,15); (389332538,15); (389286813,15);
(389241089,15); (389195366,15); (389149645,15); (389103926,15); (389058209,15); (389012493,15); (388966779,15); (388921066,15);
(388875355,15); (388829646,15); (388783939,15); (388738233,15); (388692528,15); (388646826,15); (388601125,15); (388555425,15);
(388509728,15); (388464032,15); (388418337,15); (388372645,15); (388326953,15); (388281264,15); (388235576,15); (388189890,15);
(388144206,15); (388098523,15); (388052841,15); (388007162,15); (387961484,15); (387915808,15); (387870133,15); (387824460,15);
(387778789,15); (387733119,15); (387687451,15); (387641784,15); (387596120,15); (387550457,15); (387504795,15); (387459135,15);
(387413477,15); (387367821,15); (387322166,15); (387276512,15); (387230861,15); (387185211,15); (387139562,15); (387093916,15);
(387048271,15); (387002627,15); (386956986,15); (386911345,15); (386865707,15); (386820070,15); (386774435,15); (386728802,15);
(386683170,15); (386637539,15); (386591911,15); (386546284,15); (386500659,15); (386455035,15); (386409413,15); (386363792,15);
(386318174,15); (386272557,15); (386226941,15); (386181327,15); (386135715,15); (386090105,15); (386044496,15); (385998888,15);
(385953283,15); (385907679,15); (385862077,15); (385816476,15); (385770877,15); (385725279,15); (385679684,15); (385634090,15);
(385588497,15); (385542906,15); (385497317,15); (385451730,15); (385406144,15); (385360559,15); (385314977,15); (385269396,15);
(385223816,15); (385178239,15); (385132663,15); (385087088,15); (385041515,15); (384995944,15); (384950375,15); (384904807,15);
(384859241,15); (384813676,15); (384768113,15); (384722552,15); (384676992,15); (384631434,15); (384585878,15); (384540323,15);
(384494770,15); (384449218,15); (384403669,15); (384358120,15); (384312574,15); (384267029,15); (384221486,15); (384175944,15);
(384130404,15); (384084866,15); (384039329,15); (383993794,15); (383948260,15); (383902729,15); (383857198,15); (383811670,15);
(383766143,15); (383720618,15); (383675094,15); (383629572,15); (383584052,15); (383538533,15); (383493016,15); (383447501,15);
(383401987,15); (383356475,15); (383310964,15); (383265455,15); (383219948,15); (383174442,15); (383128938,15); (383083436,15);
(383037935,15); (382992436,15); (382946939,15); (382901443,15); (382855949,15); (382810456,15); (382764966,15); (382719476,15);
(382673989,15); (382628503,15); (382583018,15); (382537536,15); (382492055,15); (382446575,15); (382401097,15); (382355621,15);
(382310147,15); (382264674,15); (382219202,15); (382173733,15); (382128265,15); (382082798,15); (382037334,15); (381991871,15);
(381946409,15); (381900949,15); (381855491,15); (381810035,15); (381764580,15); (381719126,15); (381673675,15); (381628225,15);
(381582776,15); (381537330,15); (381491884,15); (381446441,15); (381400999,15); (381355559,15); (381310120,15); (381264683,15);
(381219248,15); (381173814,15); (381128382,15); (381082952,15); (381037523,15); (380992096,15); (380946670,15); (380901247,15);
(380855824,15); (380810404,15); (380764985,15); (380719567,15); (380674152,15); (380628737,15); (380583325,15); (380537914,15);
(380492505,15); (380447097,15); (380401691,15); (380356287,15); (380310884,15); (380265483,15); (380220084,15); (380174686,15);
(380129290,15); (380083895,15); (380038502,15); (379993111,15); (379947722,15); (379902334,15); (379856947,15); (379811562,15);
(379766179,15); (379720798,15); (379675418,15); (379630040,15); (379584663,15); (379539288,15); (379493915,15); (379448543,15);
(379403173,15); (379357805,15); (379312438,15); (379267073,15); (379221709,15); (379176347,15); (379130987,15); (379085628,15);
(379040271,15); (378994916,15); (378949562,15); (378904210,15); (378858859,15); (378813510,15); (378768163,15); (378722817,15);
(378677473,15); (378632131,15); (378586790,15); (378541451,15); (378496113,15); (378450777,15); (378405443,15); (378360111,15);
(378314780,15); (378269450,15); (378224122,15); (378178796,15); (378133472,15); (378088149,15); (378042828,15); (377997508,15);
(377952190,15); (377906874,15); (377861559,15); (377816246,15); (377770934,15); (377725624,15); (377680316,15); (377635010,15);
(377589705,15); (377544401,15); (377499100,15); (377453799,15); (377408501,15); (377363204,15); (377317909,15); (377272615,15);
(377227323,15); (377182033,15); (377136744,15); (377091457,15); (377046172,15); (377000888,15); (376955606,15); (376910325,15);
(376865046,15); (376819769,15); (376774493,15); (376729219,15); (376683946,15); (376638675,15); (376593406,15); (376548138,15);
(376502873,15); (376457608,15); (376412345,15); (376367084,15); (376321825,15); (376276567,15); (376231311,15); (376186056,15);
(376140803,15); (376095552,15); (376050302,15); (376005054,15); (375959807,15); (375914562,15); (375869319,15); (375824077,15);
(375778837,15); (375733599,15); (375688362,15); (375643127,15); (375597893,15); (375552662,15); (375507431,15); (375462203,15);
(375416976,15); (375371750,15); (375326526,15); (375281304,15); (375236084,15); (375190865,15); (375145647,15); (375100432,15);
(375055217,15); (375010005,15); (374964794,15); (374919585,15); (374874377,15); (374829171,15); (374783967,15); (374738764,15);
(374693563,15); (374648364,15); (374603166,15); (374557970,15); (374512775,15); (374467582,15); (374422390,15); (374377201,15);
(374332013,15); (374286826,15); (374241641,15); (374196458,15); (374151276,15); (374106096,15); (374060918,15); (374015741,15);
(373970566,15); (373925392,15); (373880220,15); (373835050,15); (373789881,15); (373744714,15); (373699548,15); (373654384,15);
(373609222,15); (373564062,15); (373518902,15); (373473745,15); (373428589,15); (373383435,15); (373338283,15); (373293132,15);
(373247982,15); (373202835,15); (373157689,15); (373112544,15); (373067401,15); (373022260,15); (372977120,15); (372931982,15);
(372886846,15); (372841711,15); (372796578,15); (372751447,15); (372706317,15); (372661188,15); (372616062,15); (372570937,15);
(372525813,15); (372480691,15); (372435571,15); (372390452,15); (372345335,15); (372300220,15); (372255106,15); (372209994,15);
(372164884,15); (372119775,15); (372074667,15); (372029562,15); (371984458,15); (371939355,15); (371894254,15); (371849155,15);
(371804058,15); (371758962,15); (371713867,15); (371668774,15); (371623683,15); (371578594,15); (371533506,15); (371488419,15);
(371443335,15); (371398252,15); (371353170,15); (371308090,15); (371263012,15); (371217936,15); (371172861,15); (371127787,15);
(371082715,15); (371037645,15); (370992577,15); (370947510,15); (370902444,15); (370857381,15); (370812318,15); (370767258,15);
(370722199,15); (370677142,15); (370632086,15); (370587032,15); (370541980,15); (370496929,15); (370451880,15); (370406832,15);
(370361786,15); (370316742,15); (370271699,15); (370226658,15); (370181618,15); (370136580,15); (370091544,15); (370046509,15);
(370001476,15); (369956445,15); (369911415,15); (369866387,15); (369821360,15); (369776335,15); (369731311,15); (369686290,15);
(369641269,15); (369596251,15); (369551234,15); (369506218,15); (369461205,15); (369416193,15); (369371182,15); (369326173,15);
(369281166,15); (369236160,15); (369191156,15); (369146153,15); (369101153,15); (369056153,15); (369011156,15); (368966159,15);
(368921165,15); (368876172,15); (368831181,15); (368786191,15); (368741203,15); (368696217,15); (368651232,15); (368606249,15);
(368561267,15); (368516287,15); (368471309,15); (368426332,15); (368381357,15); (368336384,15); (368291412,15); (368246441,15);
(368201473,15); (368156505,15); (368111540,15); (368066576,15); (368021614,15); (367976653,15); (367931694,15); (367886737,15);
(367841781,15); (367796826,15); (367751874,15); (367706923,15); (367661973,15); (367617025,15); (367572079,15); (367527135,15);
(367482192,15); (367437250,15); (367392310,15); (367347372,15); (367302436,15); (367257501,15); (367212567,15); (367167635,15);
(367122705,15); (367077777,15); (367032850,15); (366987924,15); (366943001,15); (366898079,15); (366853158,15); (366808239,15);
(366763322,15); (366718406,15); (366673492,15); (366628580,15); (366583669,15); (366538759,15); (366493852,15); (366448946,15);
(366404041,15); (366359138,15); (366314237,15); (366269337,15); (366224439,15); (366179543,15); (366134648,15); (366089755,15);
(366044863,15); (365999973,15); (365955084,15); (365910198,15); (365865312,15); (365820429,15); (365775547,15); (365730666,15);
(365685787,15); (365640910,15); (365596035,15); (365551161,15); (365506288,15); (365461417,15); (365416548,15); (365371681,15);
(365326814,15); (365281950,15); (365237087,15); (365192226,15); (365147366,15); (365102508,15); (365057652,15); (365012797,15);
(364967944,15); (364923093,15); (364878243,15); (364833394,15); (364788547,15); (364743702,15); (364698859,15); (364654017,15);
(364609176,15); (364564337,15); (364519500,15); (364474665,15); (364429831,15); (364384998,15); (364340168,15); (364295338,15);
(364250511,15); (364205685,15); (364160860,15); (364116038,15); (364071216,15); (364026397,15); (363981579,15); (363936762,15);
(363891948,15); (363847135,15); (363802323,15); (363757513,15); (363712705,15); (363667898,15); (363623093,15); (363578289,15);
(363533487,15); (363488687,15); (363443888,15); (363399091,15); (363354295,15); (363309501,15); (363264709,15); (363219918,15);
(363175129,15); (363130341,15); (363085555,15); (363040771,15); (362995988,15); (362951207,15); (362906427,15); (362861649,15);
(362816873,15); (362772098,15); (362727324,15); (362682553,15); (362637783,15); (362593014,15); (362548248,15); (362503482,15);
(362458719,15); (362413957,15); (362369196,15); (362324437,15); (362279680,15); (362234924,15); (362190170,15); (362145418,15);
(362100667,15); (362055918,15); (362011170,15); (361966424,15); (361921679,15); (361876937,15); (361832195,15); (361787456,15);
(361742717,15); (361697981,15); (361653246,15); (361608513,15); (361563781,15); (361519051,15); (361474322,15); (361429595,15);
(361384870,15); (361340146,15); (361295424,15); (361250703,15); (361205985,15); (361161267,15); (361116551,15); (361071837,15);
(361027125,15); (360982414,15); (360937704,15); (360892996,15); (360848290,15); (360803585,15); (360758882,15); (360714181,15);
(360669481,15); (360624783,15); (360580086,15); (360535391,15); (360490698,15); (360446006,15); (360401316,15); (360356627,15);
(360311940,15); (360267254,15); (360222570,15); (360177888,15); (360133207,15); (360088528,15); (360043851,15); (359999175,15);
(359954500,15); (359909827,15); (359865156,15); (359820487,15); (359775819,15); (359731152,15); (359686487,15); (359641824,15);
(359597163,15); (359552503,15); (359507844,15); (359463187,15); (359418532,15); (359373878,15); (359329226,15); (359284576,15);
(359239927,15); (359195279,15); (359150634,15); (359105990,15); (359061347,15); (359016706,15); (358972067,15); (358927429,15);
(358882793,15); (358838158,15); (358793525,15); (358748894,15); (358704264,15); (358659636,15); (358615009,15); (358570384,15);
(358525761,15); (358481139,15); (358436518,15); (358391900,15); (358347283,15); (358302667,15); (358258053,15); (358213441,15);
(358168830,15); (358124221,15); (358079613,15); (358035007,15); (357990403,15); (357945800,15); (357901199,15); (357856599,15);
(357812001,15); (357767405,15); (357722810,15); (357678216,15); (357633625,15); (357589035,15); (357544446,15); (357499859,15);
(357455274,15); (357410690,15); (357366108,15); (357321527,15); (357276948,15); (357232371,15); (357187795,15); (357143221,15);
(357098648,15); (357054077,15); (357009508,15); (356964940,15); (356920373,15); (356875809,15); (356831245,15); (356786684,15);
(356742124,15); (356697566,15); (356653009,15); (356608454,15); (356563900,15); (356519348,15); (356474797,15); (356430249,15);
(356385701,15); (356341156,15); (356296611,15); (356252069,15); (356207528,15); (356162989,15); (356118451,15); (356073915,15);
(356029380,15); (355984847,15); (355940316,15); (355895786,15); (355851257,15); (355806731,15); (355762206,15); (355717682,15);
(355673160,15); (355628640,15); (355584121,15); (355539604,15); (355495088,15); (355450574,15); (355406062,15); (355361551,15);
(355317042,15); (355272534,15); (355228028,15); (355183523,15); (355139020,15); (355094519,15); (355050019,15); (355005521,15);
(354961025,15); (354916530,15); (354872036,15); (354827544,15); (354783054,15); (354738565,15); (354694078,15); (354649593,15);
(354605109,15); (354560626,15); (354516145,15); (354471666,15); (354427189,15); (354382713,15); (354338238,15); (354293765,15);
(354249294,15); (354204824,15); (354160356,15); (354115890,15); (354071425,15); (354026961,15); (353982499,15); (353938039,15);
(353893580,15); (353849123,15); (353804668,15); (353760214,15); (353715762,15); (353671311,15); (353626862,15); (353582414,15);
(353537968,15); (353493524,15); (353449081,15); (353404640,15); (353360200,15); (353315762,15); (353271325,15); (353226890,15);
(353182457,15); (353138025,15); (353093595,15); (353049166,15); (353004739,15); (352960314,15); (352915890,15); (352871467,15);
(352827047,15); (352782628,15); (352738210,15); (352693794,15); (352649379,15); (352604967,15); (352560555,15); (352516146,15);
(352471738,15); (352427331,15); (352382926,15); (352338523,15); (352294121,15); (352249721,15); (352205322,15); (352160925,15);
(352116529,15); (352072135,15); (352027743,15); (351983352,15); (351938963,15); (351894575,15); (351850189,15); (351805805,15);
(351761422,15); (351717041,15); (351672661,15); (351628283,15); (351583906,15); (351539531,15); (351495158,15); (351450786,15);
(351406416,15); (351362047,15); (351317680,15); (351273314,15); (351228950,15); (351184588,15); (351140227,15); (351095868,15);
(351051510,15); (351007154,15); (350962799,15); (350918446,15); (350874095,15); (350829745,15); (350785397,15); (350741050,15);
(350696705,15); (350652362,15); (350608020,15); (350563679,15); (350519341,15); (350475003,15); (350430668,15); (350386334,15);
(350342001,15); (350297670,15); (350253341,15); (350209013,15); (350164687,15); (350120362,15); (350076039,15); (350031718,15);
(349987398,15); (349943080,15); (349898763,15); (349854448,15); (349810134,15); (349765822,15); (349721512,15); (349677203,15);
(349632895,15); (349588590,15); (349544285,15); (349499983,15); (349455682,15); (349411382,15); (349367084,15); (349322788,15);
(349278493,15); (349234200,15); (349189909,15); (349145619,15); (349101330,15); (349057043,15); (349012758,15); (348968474,15);
(348924192,15); (348879911,15); (348835632,15); (348791355,15); (348747079,15); (348702805,15); (348658532,15); (348614261,15);
(348569991,15); (348525723,15); (348481457,15); (348437192,15); (348392928,15); (348348667,15); (348304406,15); (348260148,15);
(348215891,15); (348171635,15); (348127381,15); (348083129,15); (348038878,15); (347994629,15); (347950381,15); (347906135,15);
(347861891,15); (347817648,15); (347773406,15); (347729167,15); (347684928,15); (347640692,15); (347596457,15); (347552223,15);
(347507991,15); (347463761,15); (347419532,15); (347375305,15); (347331079,15); (347286855,15); (347242632,15); (347198411,15);
(347154192,15); (347109974,15); (347065758,15); (347021543,15); (346977330,15); (346933119,15); (346888909,15); (346844700,15);
(346800493,15); (346756288,15); (346712084,15); (346667882,15); (346623681,15); (346579482,15); (346535285,15); (346491089,15);
(346446895,15); (346402702,15); (346358511,15); (346314321,15); (346270133,15); (346225946,15); (346181762,15); (346137578,15);
(346093396,15); (346049216,15); (346005037,15); (345960860,15); (345916685,15); (345872511,15); (345828338,15); (345784168,15);
(345739998,15); (345695831,15); (345651664,15); (345607500,15); (345563337,15); (345519175,15); (345475015,15); (345430857,15);
(345386700,15); (345342545,15); (345298391,15); (345254239,15); (345210089,15); (345165940,15); (345121793,15); (345077647,15);
(345033502,15); (344989360,15); (344945219,15); (344901079,15); (344856941,15); (344812805,15); (344768670,15); (344724536,15);
(344680405,15); (344636275,15); (344592146,15); (344548019,15); (344503893,15); (344459769,15); (344415647,15); (344371526,15);
(344327407,15); (344283289,15); (344239173,15); (344195059,15); (344150946,15); (344106834,15); (344062724,15); (344018616,15);
(343974509,15); (343930404,15); (343886300,15); (343842198,15); (343798098,15); (343753999,15); (343709901,15); (343665806,15);
(343621711,15); (343577619,15); (343533528,15); (343489438,15); (343445350,15); (343401263,15); (343357179,15); (343313095,15);
(343269013,15); (343224933,15); (343180855,15); (343136777,15); (343092702,15); (343048628,15); (343004556,15); (342960485,15);
(342916415,15); (342872348,15); (342828281,15); (342784217,15); (342740154,15); (342696092,15); (342652032,15); (342607974,15);
(342563917,15); (342519862,15); (342475808,15); (342431756,15); (342387705,15); (342343656,15); (342299609,15); (342255563,15);
(342211519,15); (342167476,15); (342123435,15); (342079395,15); (342035357,15); (341991320,15); (341947285,15); (341903252,15);
(341859220,15); (341815190,15); (341771161,15); (341727134,15); (341683108,15); (341639084,15); (341595061,15); (341551040,15);
(341507021,15); (341463003,15); (341418987,15); (341374972,15); (341330959,15); (341286947,15); (341242937,15); (341198928,15);
(341154922,15); (341110916,15); (341066912,15); (341022910,15); (340978909,15); (340934910,15); (340890912,15); (340846916,15);
(340802922,15); (340758929,15); (340714937,15); (340670947,15); (340626959,15); (340582972,15); (340538987,15); (340495004,15);
(340451021,15); (340407041,15); (340363062,15); (340319085,15); (340275109,15); (340231134,15); (340187162,15); (340143190,15);
(340099221,15); (340055253,15); (340011286,15); (339967321,15); (339923358,15); (339879396,15); (339835436,15); (339791477,15);
(339747520,15); (339703564,15); (339659610,15); (339615657,15); (339571706,15); (339527757,15); (339483809,15); (339439863,15);
(339395918,15); (339351974,15); (339308033,15); (339264093,15); (339220154,15); (339176217,15); (339132282,15); (339088348,15);
(339044415,15); (339000484,15); (338956555,15); (338912628,15); (338868701,15); (338824777,15); (338780854,15); (338736932,15);
(338693012,15); (338649094,15); (338605177,15); (338561262,15); (338517348,15); (338473436,15); (338429525,15); (338385616,15);
(338341709,15); (338297803,15); (338253898,15); (338209995,15); (338166094,15); (338122194,15); (338078296,15); (338034399,15);
(337990504,15); (337946610,15); (337902718,15); (337858828,15); (337814939,15); (337771052,15); (337727166,15); (337683281,15);
(337639399,15); (337595518,15); (337551638,15); (337507760,15); (337463883,15); (337420008,15); (337376135,15); (337332263,15);
(337288393,15); (337244524,15); (337200657,15); (337156791,15); (337112927,15); (337069064,15); (337025203,15); (336981344,15);
(336937486,15); (336893629,15); (336849774,15); (336805921,15); (336762069,15); (336718219,15); (336674371,15); (336630523,15);
(336586678,15); (336542834,15); (336498991,15); (336455150,15); (336411311,15); (336367473,15); (336323637,15); (336279802,15);
(336235969,15); (336192137,15); (336148307,15); (336104479,15); (336060652,15); (336016826,15); (335973002,15); (335929180,15);
(335885359,15); (335841540,15); (335797722,15); (335753906,15); (335710092,15); (335666278,15); (335622467,15); (335578657,15);
(335534849,15); (335491042,15); (335447236,15); (335403432,15); (335359630,15); (335315830,15); (335272030,15); (335228233,15);
(335184437,15); (335140642,15); (335096849,15); (335053058,15); (335009268,15); (334965479,15); (334921693,15); (334877907,15);
(334834124,15); (334790342,15); (334746561,15); (334702782,15); (334659004,15); (334615228,15); (334571454,15); (334527681,15);
(334483910,15); (334440140,15); (334396371,15); (334352605,15); (334308840,15); (334265076,15); (334221314,15); (334177553,15);
(334133794,15); (334090037,15); (334046281,15); (334002526,15); (333958774,15); (333915022,15); (333871273,15); (333827524,15);
(333783778,15); (333740033,15); (333696289,15); (333652547,15); (333608806,15); (333565067,15); (333521330,15); (333477594,15);
(333433860,15); (333390127,15); (333346396,15); (333302666,15); (333258938,15); (333215211,15); (333171486,15); (333127763,15);
(333084041,15); (333040320,15); (332996601,15); (332952884,15); (332909168,15); (332865454,15); (332821741,15); (332778030,15);
(332734320,15); (332690612,15); (332646905,15); (332603200,15); (332559497,15); (332515795,15); (332472094,15); (332428396,15);
(332384698,15); (332341002,15); (332297308,15); (332253615,15); (332209924,15); (332166235,15); (332122546,15); (332078860,15);
(332035175,15); (331991491,15); (331947809,15); (331904129,15); (331860450,15); (331816773,15); (331773097,15); (331729423,15);
(331685750,15); (331642079,15); (331598409,15); (331554741,15); (331511074,15); (331467409,15); (331423746,15); (331380084,15);
(331336424,15); (331292765,15); (331249107,15); (331205452,15); (331161797,15); (331118145,15); (331074493,15); (331030844,15);
(330987196,15); (330943549,15); (330899904,15); (330856260,15); (330812619,15); (330768978,15); (330725339,15); (330681702,15);
(330638066,15); (330594432,15); (330550799,15); (330507168,15); (330463538,15); (330419910,15); (330376283,15); (330332658,15);
(330289035,15); (330245413,15); (330201792,15); (330158173,15); (330114556,15); (330070940,15); (330027326,15); (329983713,15);
(329940102,15); (329896492,15); (329852884,15); (329809277,15); (329765672,15); (329722069,15); (329678467,15); (329634866,15);
(329591267,15); (329547670,15); (329504074,15); (329460480,15); (329416887,15); (329373295,15); (329329706,15); (329286117,15);
(329242531,15); (329198946,15); (329155362,15); (329111780,15); (329068199,15); (329024620,15); (328981043,15); (328937467,15);
(328893893,15); (328850320,15); (328806748,15); (328763178,15); (328719610,15); (328676043,15); (328632478,15); (328588915,15);
(328545352,15); (328501792,15); (328458233,15); (328414675,15); (328371119,15); (328327565,15); (328284012,15); (328240460,15);
(328196910,15); (328153362,15); (328109815,15); (328066270,15); (328022726,15); (327979184,15); (327935643,15); (327892104,15);
(327848566,15); (327805030,15); (327761496,15); (327717963,15); (327674431,15); (327630901,15); (327587373,15); (327543846,15);
(327500320,15); (327456797,15); (327413274,15); (327369754,15); (327326234,15); (327282717,15); (327239200,15); (327195686,15);
(327152173,15); (327108661,15); (327065151,15); (327021642,15); (326978135,15); (326934630,15); (326891126,15); (326847623,15);
(326804122,15); (326760623,15); (326717125,15); (326673629,15); (326630134,15); (326586641,15); (326543149,15); (326499659,15);
(326456170,15); (326412683,15); (326369198,15); (326325713,15); (326282231,15); (326238750,15); (326195270,15); (326151792,15);
(326108316,15); (326064841,15); (326021368,15); (325977896,15); (325934426,15); (325890957,15); (325847489,15); (325804024,15);
(325760560,15); (325717097,15); (325673636,15); (325630176,15); (325586718,15); (325543261,15); (325499806,15); (325456353,15);
(325412901,15); (325369450,15); (325326001,15); (325282554,15); (325239108,15); (325195664,15); (325152221,15); (325108780,15);
(325065340,15); (325021902,15); (324978465,15); (324935030,15); (324891596,15); (324848164,15); (324804733,15); (324761304,15);
(324717876,15); (324674450,15); (324631026,15); (324587603,15); (324544181,15); (324500761,15); (324457343,15); (324413926,15);
(324370511,15); (324327097,15); (324283685,15); (324240274,15); (324196865,15); (324153457,15); (324110051,15); (324066646,15);
(324023243,15); (323979841,15); (323936441,15); (323893042,15); (323849645,15); (323806250,15); (323762856,15); (323719463,15);
(323676072,15); (323632683,15); (323589295,15); (323545908,15); (323502523,15); (323459140,15); (323415758,15); (323372378,15);
(323328999,15); (323285622,15); (323242246,15); (323198872,15); (323155499,15); (323112128,15); (323068758,15); (323025390,15);
(322982024,15); (322938659,15); (322895295,15); (322851933,15); (322808572,15); (322765213,15); (322721856,15); (322678500,15);
(322635146,15); (322591793,15); (322548441,15); (322505091,15); (322461743,15); (322418396,15); (322375051,15); (322331707,15);
(322288365,15); (322245024,15); (322201685,15); (322158347,15); (322115011,15); (322071676,15); (322028343,15); (321985012,15);
(321941682,15); (321898353,15); (321855026,15); (321811700,15); (321768376,15); (321725054,15); (321681733,15); (321638414,15);
(321595096,15); (321551779,15); (321508464,15); (321465151,15); (321421839,15); (321378529,15); (321335220,15); (321291913,15);
(321248607,15); (321205303,15); (321162000,15); (321118699,15); (321075399,15); (321032101,15); (320988804,15); (320945509,15);
(320902215,15); (320858923,15); (320815633,15); (320772344,15); (320729056,15); (320685770,15); (320642485,15); (320599202,15);
(320555921,15); (320512641,15); (320469363,15); (320426086,15); (320382810,15); (320339536,15); (320296264,15); (320252993,15);
(320209724,15); (320166456,15); (320123190,15); (320079925,15); (320036662,15); (319993400,15); (319950140,15); (319906881,15);
(319863624,15); (319820368,15); (319777114,15); (319733861,15); (319690610,15); (319647361,15); (319604112,15); (319560866,15);
(319517621,15); (319474377,15); (319431135,15); (319387895,15); (319344656,15); (319301418,15); (319258182,15); (319214948,15);
(319171715,15); (319128483,15); (319085254,15); (319042025,15); (318998798,15); (318955573,15); (318912349,15); (318869127,15);
(318825906,15); (318782687,15); (318739469,15); (318696253,15); (318653038,15); (318609825,15); (318566613,15); (318523403,15);
(318480194,15); (318436987,15); (318393781,15); (318350577,15); (318307374,15); (318264173,15); (318220973,15); (318177775,15);
(318134579,15); (318091384,15); (318048190,15); (318004998,15); (317961808,15); (317918619,15); (317875431,15); (317832245,15);
(317789061,15); (317745878,15); (317702696,15); (317659516,15); (317616338,15); (317573161,15); (317529985,15); (317486811,15);
(317443639,15); (317400468,15); (317357299,15); (317314131,15); (317270965,15); (317227800,15); (317184637,15); (317141475,15);
(317098314,15); (317055156,15); (317011998,15); (316968843,15); (316925688,15); (316882536,15); (316839384,15); (316796235,15);
(316753087,15); (316709940,15); (316666795,15); (316623651,15); (316580509,15); (316537368,15); (316494229,15); (316451091,15);
(316407955,15); (316364821,15); (316321688,15); (316278556,15); (316235426,15); (316192297,15); (316149170,15); (316106045,15);
(316062921,15); (316019798,15); (315976677,15); (315933558,15); (315890440,15); (315847323,15); (315804208,15); (315761095,15);
(315717983,15); (315674872,15); (315631764,15); (315588656,15); (315545550,15); (315502446,15); (315459343,15); (315416241,15);
(315373142,15); (315330043,15); (315286946,15); (315243851,15); (315200757,15); (315157665,15); (315114574,15); (315071485,15);
(315028397,15); (314985310,15); (314942226,15); (314899142,15); (314856061,15); (314812980,15); (314769902,15); (314726824,15);
(314683748,15); (314640674,15); (314597601,15); (314554530,15); (314511461,15); (314468392,15); (314425326,15); (314382260,15);
(314339197,15); (314296134,15); (314253074,15); (314210015,15); (314166957,15); (314123901,15); (314080846,15); (314037793,15);
(313994741,15); (313951691,15); (313908642,15); (313865595,15); (313822550,15); (313779506,15); (313736463,15); (313693422,15);
(313650382,15); (313607344,15); (313564308,15); (313521272,15); (313478239,15); (313435207,15); (313392176,15); (313349147,15);
(313306120,15); (313263093,15); (313220069,15); (313177046,15); (313134024,15); (313091004,15); (313047986,15); (313004969,15);
(312961953,15); (312918939,15); (312875927,15); (312832916,15); (312789906,15); (312746898,15); (312703891,15); (312660886,15);
(312617883,15); (312574881,15); (312531880,15); (312488881,15); (312445884,15); (312402888,15); (312359894,15); (312316901,15);
(312273909,15); (312230919,15); (312187931,15); (312144944,15); (312101958,15); (312058974,15); (312015992,15); (311973011,15);
(311930031,15); (311887053,15); (311844077,15); (311801102,15); (311758128,15); (311715157,15); (311672186,15); (311629217,15);
(311586250,15); (311543284,15); (311500319,15); (311457356,15); (311414395,15); (311371435,15); (311328477,15); (311285520,15);
(311242564,15); (311199610,15); (311156658,15); (311113707,15); (311070757,15); (311027809,15); (310984863,15); (310941918,15);
(310898975,15); (310856033,15); (310813092,15); (310770153,15); (310727216,15); (310684280,15); (310641346,15); (310598413,15);
(310555481,15); (310512551,15); (310469623,15); (310426696,15); (310383771,15); (310340847,15); (310297924,15); (310255003,15);
(310212084,15); (310169166,15); (310126249,15); (310083334,15); (310040421,15); (309997509,15); (309954599,15); (309911690,15);
(309868782,15); (309825876,15); (309782972,15); (309740069,15); (309697167,15); (309654267,15); (309611369,15); (309568472,15);
(309525577,15); (309482683,15); (309439790,15); (309396899,15); (309354010,15); (309311122,15); (309268235,15); (309225350,15);
(309182467,15); (309139585,15); (309096704,15); (309053825,15); (309010948,15); (308968072,15); (308925197,15); (308882324,15);
(308839453,15); (308796583,15); (308753714,15); (308710847,15); (308667982,15); (308625118,15); (308582255,15); (308539394,15);
(308496535,15); (308453677,15); (308410820,15); (308367965,15); (308325111,15); (308282259,15); (308239409,15); (308196560,15);
(308153712,15); (308110866,15); (308068021,15); (308025178,15); (307982337,15); (307939497,15); (307896658,15); (307853821,15);
(307810985,15); (307768151,15); (307725319,15); (307682487,15); (307639658,15); (307596830,15); (307554003,15); (307511178,15);
(307468354,15); (307425532,15); (307382711,15); (307339892,15); (307297075,15); (307254258,15); (307211444,15); (307168630,15);
(307125819,15); (307083009,15); (307040200,15); (306997393,15); (306954587,15); (306911783,15); (306868980,15); (306826179,15)].

(** entries 57344..59391 *)
Definition RECIPROCAL_28 : list (Z * Z) := [
(306783379,15); (306740581,15); (306697784,15); (306654988,15); (306612195,15); (306569402,15); (306526612,15); (306483822,15);
(306441034,15); (306398248,15); (306355463,15); (306312680,15); (306269898,15); (306227118,15); (306184339,15); (306141561,15);
(306098785,15); (306056011,15); (306013238,15); (305970467,15); (305927697,15); (305884928,15); (305842161,15); (305799396,15);
(305756632,15); (305713870,15); (305671109,15); (305628349,15); (305585591,15); (305542835,15); (305500080,15); (305457326,15);
(305414574,15); (305371823,15); (305329074,15); (305286327,15); (305243581,15); (305200836,15); (305158093,15); (305115351,15);
(305072611,15); (305029873,15); (304987136,15); (304944400,15); (304901666,15); (304858933,15); (304816202,15); (304773472,15);
(304730744,15); (304688017,15); (304645292,15); (304602568,15); (304559846,15); (304517125,15); (304474406,15); (304431688,15);
(304388972,15); (304346257,15); (304303544,15); (304260832,15); (304218122,15); (304175413,15); (304132705,15); (304090000,15);
(304047295,15); (304004592,15); (303961891,15); (303919191,15); (303876492,15); (303833796,15); (303791100,15); (303748406,15);
(303705714,15); (303663023,15); (303620333,15); (303577645,15); (303534958,15); (303492273,15); (303449590,15); (303406908,15);
(303364227,15); (303321548,15); (303278870,15); (303236194,15); (303193520,15); (303150846,15); (303108175,15); (303065505,15);
(303022836,15); (302980169,15); (302937503,15); (302894839,15); (302852176,15); (302809515,15); (302766855,15); (302724197,15);
(302681540,15); (302638884,15); (302596231,15); (302553578,15); (302510927,15); (302468278,15); (302425630,15); (302382984,15);
(302340339,15); (302297695,15); (302255053,15); (302212413,15); (302169774,15); (302127136,15); (302084500,15); (302041866,15);
(301999233,15); (301956601,15); (301913971,15); (301871342,15); (301828715,15); (301786089,15); (301743465,15); (301700843,15);
(301658221,15); (301615602,15); (301572983,15); (301530367,15); (301487751,15); (301445138,15); (301402525,15); (301359915,15);
(301317305,15); (301274697,15); (301232091,15); (301189486,15); (301146883,15); (301104281,15); (301061680,15); (301019081,15);
(300976484,15); (300933888,15); (300891293,15); (300848700,15); (300806109,15); (300763519,15); (300720930,15); (300678343,15);
(300635758,15); (300593173,15); (300550591,15); (300508010,15); (300465430,15); (300422852,15); (300380275,15); (300337700,15);
(300295126,15); (300252554,15); (300209983,15); (300167413,15); (300124846,15); (300082279,15); (300039714,15); (299997151,15);
(299954589,15); (299912029,15); (299869470,15); (299826912,15); (299784356,15); (299741802,15); (299699249,15); (299656697,15);
(299614147,15); (299571598,15); (299529051,15); (299486506,15); (299443961,15); (299401419,15); (299358878,15); (299316338,15);
(299273800,15); (299231263,15); (299188728,15); (299146194,15); (299103661,15); (299061131,15); (299018601,15); (298976073,15);
(298933547,15); (298891022,15); (298848498,15); (298805976,15); (298763456,15); (298720937,15); (298678419,15); (298635903,15);
(298593389,15); (298550876,15); (298508364,15); (298465854,15); (298423345,15); (298380838,15); (298338332,15); (298295828,15);
(298253325,15); (298210824,15); (298168324,15); (298125826,15); (298083329,15); (298040833,15); (297998340,15); (297955847,15);
(297913356,15); (297870867,15); (297828379,15); (297785892,15); (297743407,15); (297700924,15); (297658441,15); (297615961,15);
(297573482,15); (297531004,15); (297488528,15); (297446053,15); (297403580,15); (297361108,15); (297318638,15); (297276169,15);
(297233702,15); (297191236,15); (297148771,15); (297106308,15); (297063847,15); (297021387,15); (296978929,15); (296936472,15);
(296894016,15); (296851562,15); (296809109,15); (296766658,15); (296724209,15); (296681760,15); (296639314,15); (296596869,15);
(296554425,15); (296511983,15); (296469542,15); (296427102,15); (296384665,15); (296342228,15); (296299793,15); (296257360,15);
(296214928,15); (296172497,15); (296130068,15); (296087641,15); (296045215,15); (296002790,15); (295960367,15); (295917946,15);
(295875525,15); (295833107,15); (295790689,15); (295748274,15); (295705859,15); (295663447,15); (295621035,15); (295578625,15);
(295536217,15); (295493810,15); (295451405,15); (295409001,15); (295366598,15); (295324197,15); (295281798,15); (295239400,15);
(295197003,15); (295154608,15); (295112214,15); (295069822,15); (295027431,15); (294985042,15); (294942654,15); (294900268,15);
(294857883,15); (294815500,15); (294773118,15); (294730737,15); (294688358,15); (294645981,15); (294603605,15); (294561230,15);
(294518857,15); (294476486,15); (294434116,15); (294391747,15); (294349380,15); (294307014,15); (294264650,15); (294222287,15);
(294179926,15); (294137566,15); (294095207,15); (294052851,15); (294010495,15); (293968141,15); (293925789,15); (293883438,15);
(293841088,15); (293798740,15); (293756393,15); (293714048,15); (293671705,15); (293629362,15); (293587022,15); (293544682,15);
(293502345,15); (293460008,15); (293417673,15); (293375340,15); (293333008,15); (293290678,15); (293248349,15); (293206021,15);
(293163695,15); (293121370,15); (293079047,15); (293036726,15); (292994405,15); (292952087,15); (292909769,15); (292867454,15);
(292825139,15); (292782827,15); (292740515,15); (292698205,15); (292655897,15); (292613590,15); (292571284,15); (292528980,15);
(292486678,15); (292444377,15); (292402077,15); (292359779,15); (292317482,15); (292275187,15); (292232893,15); (292190601,15);
(292148310,15); (292106020,15); (292063733,15); (292021446,15); (291979161,15); (291936878,15); (291894596,15); (291852315,15);
(291810036,15); (291767758,15); (291725482,15); (291683207,15); (291640934,15); (291598662,15); (291556392,15); (291514123,15);
(291471856,15); (291429590,15); (291387325,15); (291345062,15); (291302801,15); (291260541,15); (291218282,15); (291176025,15);
(291133769,15); (291091515,15); (291049262,15); (291007011,15); (290964761,15); (290922513,15); (290880266,15); (290838021,15);
(290795777,15); (290753534,15); (290711293,15); (290669053,15); (290626815,15); (290584579,15); (290542343,15); (290500110,15);
(290457878,15); (290415647,15); (290373417,15); (290331190,15); (290288963,15); (290246738,15); (290204515,15); (290162293,15);
(290120072,15); (290077853,15); (290035635,15); (289993419,15); (289951205,15); (289908991,15); (289866779,15); (289824569,15);
(289782360,15); (289740153,15); (289697947,15); (289655743,15); (289613540,15); (289571338,15); (289529138,15); (289486939,15);
(289444742,15); (289402546,15); (289360352,15); (289318159,15); (289275968,15); (289233778,15); (289191590,15); (289149403,15);
(289107217,15); (289065033,15); (289022851,15); (288980670,15); (288938490,15); (288896312,15); (288854135,15); (288811960,15);
(288769786,15); (288727614,15); (288685443,15); (288643274,15); (288601106,15); (288558939,15); (288516774,15); (288474610,15);
(288432448,15); (288390288,15); (288348129,15); (288305971,15); (288263815,15); (288221660,15); (288179506,15); (288137354,15);
(288095204,15); (288053055,15); (288010908,15); (287968761,15); (287926617,15); (287884474,15); (287842332,15); (287800192,15);
(287758053,15); (287715916,15); (287673780,15); (287631645,15); (287589512,15); (287547381,15); (287505251,15); (287463122,15);
(287420995,15); (287378870,15); (287336745,15); (287294623,15); (287252501,15); (287210382,15); (287168263,15); (287126146,15);
(287084031,15); (287041917,15); (286999804,15); (286957693,15); (286915584,15); (286873476,15); (286831369,15); (286789264,15);
(286747160,15); (286705057,15); (286662957,15); (286620857,15); (286578759,15); (286536663,15); (286494568,15); (286452474,15);
(286410382,15); (286368291,15); (286326202,15); (286284114,15); (286242028,15); (286199943,15); (286157860,15); (286115778,15);
(286073697,15); (286031618,15); (285989541,15); (285947464,15); (285905390,15); (285863316,15); (285821245,15); (285779174,15);
(285737106,15); (285695038,15); (285652972,15); (285610908,15); (285568845,15); (285526783,15); (285484723,15); (285442664,15);
(285400607,15); (285358551,15); (285316497,15); (285274444,15); (285232393,15); (285190343,15); (285148294,15); (285106247,15);
(285064202,15); (285022157,15); (284980115,15); (284938073,15); (284896034,15); (284853995,15); (284811959,15); (284769923,15);
(284727889,15); (284685857,15); (284643826,15); (284601796,15); (284559768,15); (284517741,15); (284475716,15); (284433692,15);
(284391670,15); (284349649,15); (284307629,15); (284265611,15); (284223595,15); (284181580,15); (284139566,15); (284097554,15);
(284055543,15); (284013534,15); (283971526,15); (283929520,15); (283887515,15); (283845511,15); (283803509,15); (283761509,15);
(283719510,15); (283677512,15); (283635516,15); (283593521,15); (283551528,15); (283509536,15); (283467545,15); (283425556,15);
(283383569,15); (283341583,15); (283299598,15); (283257615,15); (283215633,15); (283173653,15); (283131674,15); (283089697,15);
(283047721,15); (283005746,15); (282963773,15); (282921802,15); (282879832,15); (282837863,15); (282795896,15); (282753930,15);
(282711966,15); (282670003,15); (282628041,15); (282586082,15); (282544123,15); (282502166,15); (282460210,15); (282418256,15);
(282376303,15); (282334352,15); (282292402,15); (282250454,15); (282208507,15); (282166561,15); (282124617,15); (282082675,15);
(282040734,15); (281998794,15); (281956856,15); (281914919,15); (281872984,15); (281831050,15); (281789117,15); (281747186,15);
(281705257,15); (281663329,15); (281621402,15); (281579477,15); (281537553,15); (281495631,15); (281453710,15); (281411790,15);
(281369872,15); (281327956,15); (281286041,15); (281244127,15); (281202215,15); (281160304,15); (281118395,15); (281076487,15);
(281034581,15); (280992676,15); (280950772,15); (280908870,15); (280866969,15); (280825070,15); (280783173,15); (280741276,15);
(280699381,15); (280657488,15); (280615596,15); (280573706,15); (280531817,15); (280489929,15); (280448043,15); (280406158,15);
(280364275,15); (280322393,15); (280280513,15); (280238634,15); (280196756,15); (280154880,15); (280113005,15); (280071132,15);
(280029261,15); (279987390,15); (279945521,15); (279903654,15); (279861788,15); (279819924,15); (279778061,15); (279736199,15);
(279694339,15); (279652480,15); (279610623,15); (279568767,15); (279526913,15); (279485060,15); (279443208,15); (279401358,15);
(279359509,15); (279317662,15); (279275817,15); (279233972,15); (279192129,15); (279150288,15); (279108448,15); (279066609,15);
(279024772,15); (278982937,15); (278941103,15); (278899270,15); (278857439,15); (278815609,15); (278773780,15); (278731953,15);
(278690128,15); (278648304,15); (278606481,15); (278564660,15); (278522840,15); (278481022,15); (278439205,15); (278397389,15);
(278355575,15); (278313763,15); (278271952,15); (278230142,15); (278188334,15); (278146527,15); (278104722,15); (278062918,15);
(278021115,15); (277979314,15); (277937515,15); (277895717,15); (277853920,15); (277812125,15); (277770331,15); (277728538,15);
(277686747,15); (277644958,15); (277603170,15); (277561383,15); (277519598,15); (277477814,15); (277436032,15); (277394251,15);
(277352472,15); (277310694,15); (277268917,15); (277227142,15); (277185368,15); (277143596,15); (277101825,15); (277060056,15);
(277018288,15); (276976522,15); (276934757,15); (276892993,15); (276851231,15); (276809470,15); (276767711,15); (276725953,15);
(276684197,15); (276642442,15); (276600688,15); (276558936,15); (276517185,15); (276475436,15); (276433688,15); (276391942,15);
(276350197,15); (276308454,15); (276266712,15); (276224971,15); (276183232,15); (276141494,15); (276099758,15); (276058023,15);
(276016290,15); (275974558,15); (275932827,15); (275891098,15); (275849371,15); (275807644,15); (275765920,15); (275724196,15);
(275682474,15); (275640754,15); (275599035,15); (275557317,15); (275515601,15); (275473886,15); (275432173,15); (275390461,15);
(275348751,15); (275307042,15); (275265334,15); (275223628,15); (275181924,15); (275140220,15); (275098519,15); (275056818,15);
(275015119,15); (274973422,15); (274931726,15); (274890031,15); (274848338,15); (274806646,15); (274764956,15); (274723267,15);
(274681580,15); (274639894,15); (274598209,15); (274556526,15); (274514844,15); (274473164,15); (274431485,15); (274389808,15);
(274348132,15); (274306457,15); (274264784,15); (274223112,15); (274181442,15); (274139773,15); (274098106,15); (274056440,15);
(274014776,15); (273973113,15); (273931451,15); (273889791,15); (273848132,15); (273806475,15); (273764819,15); (273723164,15);
(273681511,15); (273639860,15); (273598210,15); (273556561,15); (273514914,15); (273473268,15); (273431623,15); (273389980,15);
(273348339,15); (273306699,15); (273265060,15); (273223423,15); (273181787,15); (273140152,15); (273098520,15); (273056888,15);
(273015258,15); (272973629,15); (272932002,15); (272890376,15); (272848752,15); (272807129,15); (272765507,15); (272723887,15);
(272682269,15); (272640651,15); (272599036,15); (272557421,15); (272515808,15); (272474197,15); (272432587,15); (272390978,15);
(272349371,15); (272307765,15); (272266161,15); (272224558,15); (272182957,15); (272141356,15); (272099758,15); (272058161,15);
(272016565,15); (271974971,15); (271933378,15); (271891786,15); (271850196,15); (271808608,15); (271767020,15); (271725435,15);
(271683850,15); (271642267,15); (271600686,15); (271559106,15); (271517527,15); (271475950,15); (271434374,15); (271392800,15);
(271351227,15); (271309656,15); (271268086,15); (271226517,15); (271184950,15); (271143384,15); (271101820,15); (271060257,15);
(271018696,15); (270977136,15); (270935577,15); (270894020,15); (270852464,15); (270810910,15); (270769357,15); (270727806,15);
(270686256,15); (270644707,15); (270603160,15); (270561614,15); (270520070,15); (270478527,15); (270436985,15); (270395445,15);
(270353907,15); (270312370,15); (270270834,15); (270229299,15); (270187767,15); (270146235,15); (270104705,15); (270063176,15);
(270021649,15); (269980123,15); (269938599,15); (269897076,15); (269855555,15); (269814035,15); (269772516,15); (269730999,15);
(269689483,15); (269647969,15); (269606456,15); (269564944,15); (269523434,15); (269481926,15); (269440418,15); (269398913,15);
(269357408,15); (269315905,15); (269274404,15); (269232904,15); (269191405,15); (269149908,15); (269108412,15); (269066918,15);
(269025425,15); (268983933,15); (268942443,15); (268900954,15); (268859467,15); (268817981,15); (268776497,15); (268735014,15);
(268693532,15); (268652052,15); (268610573,15); (268569096,15); (268527620,15); (268486146,15); (268444673,15); (268403201,15);
(268361731,15); (268320262,15); (268278795,15); (268237329,15); (268195864,15); (268154401,15); (268112940,15); (268071479,15);
(268030021,15); (267988563,15); (267947107,15); (267905653,15); (267864200,15); (267822748,15); (267781298,15); (267739849,15);
(267698401,15); (267656955,15); (267615511,15); (267574068,15); (267532626,15); (267491186,15); (267449747,15); (267408309,15);
(267366873,15); (267325439,15); (267284006,15); (267242574,15); (267201143,15); (267159715,15); (267118287,15); (267076861,15);
(267035436,15); (266994013,15); (266952591,15); (266911171,15); (266869752,15); (266828334,15); (266786918,15); (266745503,15);
(266704090,15); (266662678,15); (266621268,15); (266579859,15); (266538451,15); (266497045,15); (266455640,15); (266414237,15);
(266372835,15); (266331434,15); (266290035,15); (266248638,15); (266207241,15); (266165847,15); (266124453,15); (266083061,15);
(266041671,15); (266000282,15); (265958894,15); (265917508,15); (265876123,15); (265834739,15); (265793357,15); (265751976,15);
(265710597,15); (265669219,15); (265627843,15); (265586468,15); (265545095,15); (265503723,15); (265462352,15); (265420983,15);
(265379615,15); (265338248,15); (265296883,15); (265255520,15); (265214157,15); (265172797,15); (265131437,15); (265090079,15);
(265048723,15); (265007368,15); (264966014,15); (264924662,15); (264883311,15); (264841962,15); (264800614,15); (264759267,15);
(264717922,15); (264676578,15); (264635236,15); (264593895,15); (264552555,15); (264511217,15); (264469880,15); (264428545,15);
(264387211,15); (264345879,15); (264304548,15); (264263218,15); (264221890,15); (264180563,15); (264139238,15); (264097914,15);
(264056592,15); (264015271,15); (263973951,15); (263932633,15); (263891316,15); (263850000,15); (263808686,15); (263767374,15);
(263726063,15); (263684753,15); (263643444,15); (263602137,15); (263560832,15); (263519528,15); (263478225,15); (263436924,15);
(263395624,15); (263354326,15); (263313029,15); (263271733,15); (263230439,15); (263189146,15); (263147855,15); (263106565,15);
(263065276,15); (263023989,15); (262982703,15); (262941419,15); (262900136,15); (262858855,15); (262817575,15); (262776296,15);
(262735019,15); (262693743,15); (262652468,15); (262611195,15); (262569924,15); (262528654,15); (262487385,15); (262446118,15);
(262404852,15); (262363587,15); (262322324,15); (262281062,15); (262239802,15); (262198543,15); (262157286,15); (262116030,15);
(262074775,15); (262033522,15); (261992270,15); (261951020,15); (261909771,15); (261868523,15); (261827277,15); (261786032,15);
(261744789,15); (261703547,15); (261662307,15); (261621068,15); (261579830,15); (261538594,15); (261497359,15); (261456125,15);
(261414893,15); (261373663,15); (261332434,15); (261291206,15); (261249979,15); (261208754,15); (261167531,15); (261126309,15);
(261085088,15); (261043869,15); (261002651,15); (260961434,15); (260920219,15); (260879006,15); (260837793,15); (260796582,15);
(260755373,15); (260714165,15); (260672958,15); (260631753,15); (260590549,15); (260549347,15); (260508146,15); (260466946,15);
(260425748,15); (260384551,15); (260343356,15); (260302162,15); (260260970,15); (260219778,15); (260178589,15); (260137400,15);
(260096214,15); (260055028,15); (260013844,15); (259972661,15); (259931480,15); (259890300,15); (259849122,15); (259807945,15);
(259766769,15); (259725595,15); (259684422,15); (259643251,15); (259602081,15); (259560912,15); (259519745,15); (259478579,15);
(259437415,15); (259396252,15); (259355090,15); (259313930,15); (259272771,15); (259231614,15); (259190458,15); (259149304,15);
(259108151,15); (259066999,15); (259025849,15); (258984700,15); (258943552,15); (258902406,15); (258861262,15); (258820118,15);
(258778977,15); (258737836,15); (258696697,15); (258655559,15); (258614423,15); (258573288,15); (258532155,15); (258491023,15);
(258449892,15); (258408763,15); (258367636,15); (258326509,15); (258285384,15); (258244261,15); (258203139,15); (258162018,15);
(258120898,15); (258079781,15); (258038664,15); (257997549,15); (257956435,15); (257915323,15); (257874212,15); (257833102,15);
(257791994,15); (257750888,15); (257709782,15); (257668678,15); (257627576,15); (257586475,15); (257545375,15); (257504277,15);
(257463180,15); (257422085,15); (257380991,15); (257339898,15); (257298807,15); (257257717,15); (257216629,15); (257175542,15);
(257134456,15); (257093372,15); (257052289,15); (257011207,15); (256970127,15); (256929049,15); (256887972,15); (256846896,15);
(256805821,15); (256764748,15); (256723677,15); (256682607,15); (256641538,15); (256600471,15); (256559405,15); (256518340,15);
(256477277,15); (256436215,15); (256395155,15); (256354096,15); (256313038,15); (256271982,15); (256230927,15); (256189874,15);
(256148822,15); (256107771,15); (256066722,15); (256025675,15); (255984628,15); (255943583,15); (255902540,15); (255861498,15);
(255820457,15); (255779418,15); (255738380,15); (255697343,15); (255656308,15); (255615274,15); (255574242,15); (255533211,15);
(255492182,15); (255451153,15); (255410127,15); (255369101,15); (255328077,15); (255287055,15); (255246034,15); (255205014,15);
(255163996,15); (255122979,15); (255081963,15); (255040949,15); (254999937,15); (254958925,15); (254917915,15); (254876907,15);
(254835900,15); (254794894,15); (254753890,15); (254712887,15); (254671885,15); (254630885,15); (254589886,15); (254548889,15);
(254507893,15); (254466899,15); (254425906,15); (254384914,15); (254343924,15); (254302935,15); (254261947,15); (254220961,15);
(254179976,15); (254138993,15); (254098011,15); (254057031,15); (254016051,15); (253975074,15); (253934097,15); (253893122,15);
(253852149,15); (253811177,15); (253770206,15); (253729237,15); (253688269,15); (253647302,15); (253606337,15); (253565373,15);
(253524411,15); (253483450,15); (253442490,15); (253401532,15); (253360576,15); (253319620,15); (253278666,15); (253237714,15);
(253196762,15); (253155813,15); (253114864,15); (253073917,15); (253032972,15); (252992028,15); (252951085,15); (252910143,15);
(252869203,15); (252828265,15); (252787328,15); (252746392,15); (252705457,15); (252664524,15); (252623593,15); (252582663,15);
(252541734,15); (252500806,15); (252459880,15); (252418956,15); (252378032,15); (252337111,15); (252296190,15); (252255271,15);
(252214353,15); (252173437,15); (252132522,15); (252091609,15); (252050697,15); (252009786,15); (251968877,15); (251927969,15);
(251887062,15); (251846157,15); (251805254,15); (251764351,15); (251723450,15); (251682551,15); (251641653,15); (251600756,15);
(251559861,15); (251518967,15); (251478074,15); (251437183,15); (251396293,15); (251355405,15); (251314518,15); (251273632,15);
(251232748,15); (251191865,15); (251150984,15); (251110104,15); (251069225,15); (251028348,15); (250987472,15); (250946598,15);
(250905725,15); (250864853,15); (250823983,15); (250783114,15); (250742246,15); (250701380,15); (250660516,15); (250619652,15);
(250578790,15); (250537930,15); (250497071,15); (250456213,15); (250415357,15); (250374502,15); (250333648,15); (250292796,15);
(250251945,15); (250211096,15); (250170248,15); (250129401,15); (250088556,15); (250047712,15); (250006870,15); (249966029,15);
(249925189,15); (249884351,15); (249843514,15); (249802679,15); (249761845,15); (249721012,15); (249680181,15); (249639351,15);
(249598522,15); (249557695,15); (249516870,15); (249476045,15); (249435222,15); (249394401,15); (249353581,15); (249312762,15);
(249271944,15); (249231128,15); (249190314,15); (249149501,15); (249108689,15); (249067878,15); (249027069,15); (248986262,15);
(248945455,15); (248904651,15); (248863847,15); (248823045,15); (248782244,15); (248741445,15); (248700647,15); (248659851,15);
(248619055,15); (248578262,15); (248537469,15); (248496678,15); (248455889,15); (248415100,15); (248374314,15); (248333528,15);
(248292744,15); (248251962,15); (248211180,15); (248170400,15); (248129622,15); (248088845,15); (248048069,15); (248007295,15);
(247966522,15); (247925750,15); (247884980,15); (247844211,15); (247803444,15); (247762678,15); (247721914,15); (247681150,15);
(247640388,15); (247599628,15); (247558869,15); (247518111,15); (247477355,15); (247436600,15); (247395847,15); (247355095,15);
(247314344,15); (247273595,15); (247232847,15); (247192100,15); (247151355,15); (247110611,15); (247069869,15); (247029128,15);
(246988388,15); (246947650,15); (246906913,15); (246866177,15); (246825443,15); (246784711,15); (246743979,15); (246703249,15);
(246662521,15); (246621794,15); (246581068,15); (246540343,15); (246499620,15); (246458899,15); (246418179,15); (246377460,15);
(246336742,15); (246296026,15); (246255311,15); (246214598,15); (246173886,15); (246133176,15); (246092467,15); (246051759,15);
(246011052,15); (245970347,15); (245929644,15); (245888942,15); (245848241,15); (245807541,15); (245766843,15); (245726146,15);
(245685451,15); (245644757,15); (245604065,15); (245563374,15); (245522684,15); (245481995,15); (245441308,15); (245400623,15);
(245359939,15); (245319256,15); (245278574,15); (245237894,15); (245197215,15); (245156538,15); (245115862,15); (245075188,15);
(245034514,15); (244993843,15); (244953172,15); (244912503,15); (244871836,15); (244831169,15); (244790504,15); (244749841,15);
(244709179,15); (244668518,15); (244627859,15); (244587201,15); (244546544,15); (244505889,15); (244465235,15); (244424583,15);
(244383932,15); (244343282,15); (244302634,15); (244261987,15); (244221341,15); (244180697,15); (244140054,15); (244099413,15);
(244058773,15); (244018134,15); (243977497,15); (243936861,15); (243896227,15); (243855594,15); (243814962,15); (243774332,15);
(243733703,15); (243693075,15); (243652449,15); (243611824,15); (243571201,15); (243530578,15); (243489958,15); (243449339,15);
(243408721,15); (243368104,15); (243327489,15); (243286875,15); (243246263,15); (243205652,15); (243165042,15); (243124434,15);
(243083827,15); (243043221,15); (243002617,15); (242962015,15); (242921413,15); (242880813,15); (242840215,15); (242799617,15);
(242759022,15); (242718427,15); (242677834,15); (242637242,15); (242596652,15); (242556063,15); (242515475,15); (242474889,15);
(242434304,15); (242393721,15); (242353139,15); (242312558,15); (242271979,15); (242231401,15); (242190825,15); (242150249,15);
(242109676,15); (242069103,15); (242028532,15); (241987962,15); (241947394,15); (241906827,15); (241866262,15); (241825698,15);
(241785135,15); (241744573,15); (241704013,15); (241663455,15); (241622898,15); (241582342,15); (241541787,15); (241501234,15);
(241460682,15); (241420132,15); (241379583,15); (241339035,15); (241298489,15); (241257944,15); (241217401,15); (241176859,15);
(241136318,15); (241095778,15); (241055240,15); (241014704,15); (240974169,15); (240933635,15); (240893102,15); (240852571,15);
(240812041,15); (240771513,15); (240730986,15); (240690460,15); (240649936,15); (240609413,15); (240568892,15); (240528372,15);
(240487853,15); (240447336,15); (240406820,15); (240366305,15); (240325792,15); (240285280,15); (240244770,15); (240204260,15);
(240163753,15); (240123246,15); (240082741,15); (240042238,15); (240001735,15); (239961235,15); (239920735,15); (239880237,15);
(239839740,15); (239799245,15); (239758751,15); (239718258,15); (239677767,15); (239637277,15); (239596789,15); (239556302,15);
(239515816,15); (239475331,15); (239434848,15); (239394367,15); (239353887,15); (239313408,15); (239272930,15); (239232454,15);
(239191979,15); (239151506,15); (239111034,15); (239070563,15); (239030094,15); (238989626,15); (238949159,15); (238908694,15);
(238868230,15); (238827768,15); (238787307,15); (238746847,15); (238706389,15); (238665932,15); (238625477,15); (238585022,15);
(238544570,15); (238504118,15); (238463668,15); (238423219,15); (238382772,15); (238342326,15); (238301881,15); (238261438,15);
(238220996,15); (238180556,15); (238140117,15); (238099679,15); (238059243,15); (238018808,15); (237978374,15); (237937942,15);
(237897511,15); (237857082,15); (237816653,15); (237776227,15); (237735801,15); (237695377,15); (237654955,15); (237614533,15);
(237574113,15); (237533695,15); (237493278,15); (237452862,15); (237412447,15); (237372034,15); (237331623,15); (237291212,15);
(237250803,15); (237210396,15); (237169990,15); (237129585,15); (237089181,15); (237048779,15); (237008378,15); (236967979,15);
(236927581,15); (236887184,15); (236846789,15); (236806395,15); (236766003,15); (236725612,15); (236685222,15); (236644833,15);
(236604446,15); (236564061,15); (236523676,15); (236483293,15); (236442912,15); (236402532,15); (236362153,15); (236321775,15);
(236281399,15); (236241024,15); (236200651,15); (236160279,15); (236119908,15); (236079539,15); (236039171,15); (235998805,15);
(235958440,15); (235918076,15); (235877713,15); (235837352,15); (235796993,15); (235756634,15); (235716277,15); (235675922,15);
(235635567,15); (235595215,15); (235554863,15); (235514513,15); (235474164,15); (235433817,15); (235393471,15); (235353126,15);
(235312783,15); (235272441,15); (235232100,15); (235191761,15); (235151423,15); (235111087,15); (235070752,15); (235030418,15);
(234990085,15); (234949754,15); (234909425,15); (234869097,15); (234828770,15); (234788444,15); (234748120,15); (234707797,15);
(234667476,15); (234627156,15); (234586837,15); (234546519,15); (234506203,15); (234465889,15); (234425576,15); (234385264,15);
(234344953,15); (234304644,15); (234264336,15); (234224030,15); (234183725,15); (234143421,15); (234103119,15); (234062818,15);
(234022518,15); (233982220,15); (233941923,15); (233901627,15); (233861333,15); (233821040,15); (233780749,15); (233740459,15);
(233700170,15); (233659883,15); (233619597,15); (233579312,15); (233539029,15); (233498747,15); (233458466,15); (233418187,15);
(233377909,15); (233337633,15); (233297358,15); (233257084,15); (233216812,15); (233176541,15); (233136271,15); (233096003,15);
(233055736,15); (233015471,15); (232975206,15); (232934943,15); (232894682,15); (232854422,15); (232814163,15); (232773906,15);
(232733650,15); (232693395,15); (232653142,15); (232612890,15); (232572639,15); (232532390,15); (232492142,15); (232451896,15);
(232411651,15); (232371407,15); (232331165,15); (232290924,15); (232250684,15); (232210446,15); (232170209,15); (232129973,15);
(232089739,15); (232049506,15); (232009274,15); (231969044,15); (231928815,15); (231888588,15); (231848362,15); (231808137,15);
(231767914,15); (231727692,15); (231687471,15); (231647252,15); (231607034,15); (231566817,15); (231526602,15); (231486388,15);
(231446176,15); (231405965,15); (231365755,15); (231325547,15); (231285340,15); (231245134,15); (231204930,15); (231164727,15);
(231124525,15); (231084325,15); (231044126,15); (231003928,15); (230963732,15); (230923537,15); (230883344,15); (230843152,15);
(230802961,15); (230762772,15); (230722584,15); (230682397,15); (230642212,15); (230602028,15); (230561845,15); (230521664,15);
(230481484,15); (230441306,15); (230401129,15); (230360953,15); (230320778,15); (230280605,15); (230240434,15); (230200263,15);
(230160094,15); (230119926,15); (230079760,15); (230039595,15); (229999432,15); (229959269,15); (229919109,15); (229878949,15);
(229838791,15); (229798634,15); (229758479,15); (229718325,15); (229678172,15); (229638021,15); (229597871,15); (229557722,15);
(229517575,15); (229477429,15); (229437284,15); (229397141,15); (229356999,15); (229316858,15); (229276719,15); (229236581,15);
(229196445,15); (229156310,15); (229116176,15); (229076044,15); (229035913,15); (228995783,15); (228955655,15); (228915528,15);
(228875402,15); (228835278,15); (228795155,15); (228755033,15); (228714913,15); (228674794,15); (228634677,15); (228594561,15);
(228554446,15); (228514333,15); (228474221,15); (228434110,15); (228394000,15); (228353892,15); (228313786,15); (228273681,15);
(228233577,15); (228193474,15); (228153373,15); (228113273,15); (228073174,15); (228033077,15); (227992981,15); (227952887,15);
(227912794,15); (227872702,15); (227832612,15); (227792523,15); (227752435,15); (227712349,15); (227672264,15); (227632180,15);
(227592098,15); (227552017,15); (227511937,15); (227471859,15); (227431782,15); (227391707,15); (227351632,15); (227311560,15);
(227271488,15); (227231418,15); (227191349,15); (227151282,15); (227111216,15); (227071151,15); (227031088,15); (226991026,15);
(226950965,15); (226910906,15); (226870848,15); (226830791,15); (226790736,15); (226750682,15); (226710630,15); (226670578,15);
(226630529,15); (226590480,15); (226550433,15); (226510387,15); (226470343,15); (226430300,15); (226390258,15); (226350218,15);
(226310178,15); (226270141,15); (226230104,15); (226190070,15); (226150036,15); (226110004,15); (226069973,15); (226029943,15);
(225989915,15); (225949888,15); (225909862,15); (225869838,15); (225829815,15); (225789794,15); (225749774,15); (225709755,15);
(225669738,15); (225629722,15); (225589707,15); (225549694,15); (225509681,15); (225469671,15); (225429661,15); (225389653,15);
(225349647,15); (225309642,15); (225269638,15); (225229635,15); (225189634,15); (225149634,15); (225109635,15); (225069638,15);
(225029642,15); (224989648,15); (224949655,15); (224909663,15); (224869672,15); (224829683,15); (224789696,15); (224749709,15);
(224709724,15); (224669740,15); (224629758,15); (224589777,15); (224549797,15); (224509819,15); (224469842,15); (224429867,15);
(224389892,15); (224349919,15); (224309948,15); (224269978,15); (224230009,15); (224190041,15); (224150075,15); (224110110,15);
(224070147,15); (224030184,15); (223990224,15); (223950264,15); (223910306,15); (223870349,15); (223830394,15); (223790440,15);
(223750487,15); (223710536,15); (223670586,15); (223630637,15); (223590690,15); (223550744,15); (223510799,15); (223470856,15);
(223430914,15); (223390973,15); (223351034,15); (223311096,15); (223271159,15); (223231224,15); (223191290,15); (223151358,15);
(223111427,15); (223071497,15); (223031568,15); (222991641,15); (222951715,15); (222911791,15); (222871868,15); (222831946,15);
(222792025,15); (222752106,15); (222712189,15); (222672272,15); (222632357,15); (222592443,15); (222552531,15); (222512620,15);
(222472710,15); (222432802,15); (222392895,15); (222352989,15); (222313085,15); (222273182,15); (222233281,15); (222193380,15)].

(** entries 59392..61439 *)
Definition RECIPROCAL_29 : list (Z * Z) := [
(222153481,15); (222113584,15); (222073688,15); (222033793,15); (221993899,15); (221954007,15); (221914116,15); (221874226,15);
(221834338,15); (221794451,15); (221754566,15); (221714682,15); (221674799,15); (221634918,15); (221595037,15); (221555159,15);
(221515281,15); (221475405,15); (221435530,15); (221395657,15); (221355785,15); (221315914,15); (221276045,15); (221236177,15);
(221196310,15); (221156445,15); (221116581,15); (221076718,15); (221036857,15); (220996997,15); (220957138,15); (220917281,15);
(220877425,15); (220837570,15); (220797717,15); (220757865,15); (220718014,15); (220678165,15); (220638317,15); (220598471,15);
(220558625,15); (220518781,15); (220478939,15); (220439098,15); (220399258,15); (220359419,15); (220319582,15); (220279746,15);
(220239912,15); (220200078,15); (220160247,15); (220120416,15); (220080587,15); (220040759,15); (220000933,15); (219961108,15);
(219921284,15); (219881461,15); (219841640,15); (219801820,15); (219762002,15); (219722185,15); (219682369,15); (219642555,15);
(219602742,15); (219562930,15); (219523120,15); (219483310,15); (219443503,15); (219403696,15); (219363891,15); (219324088,15);
(219284285,15); (219244484,15); (219204685,15); (219164886,15); (219125089,15); (219085294,15); (219045499,15); (219005706,15);
(218965915,15); (218926124,15); (218886335,15); (218846548,15); (218806761,15); (218766976,15); (218727193,15); (218687410,15);
(218647629,15); (218607850,15); (218568072,15); (218528295,15); (218488519,15); (218448745,15); (218408972,15); (218369200,15);
(218329430,15); (218289661,15); (218249894,15); (218210127,15); (218170362,15); (218130599,15); (218090837,15); (218051076,15);
(218011316,15); (217971558,15); (217931801,15); (217892045,15); (217852291,15); (217812538,15); (217772787,15); (217733037,15);
(217693288,15); (217653540,15); (217613794,15); (217574049,15); (217534306,15); (217494563,15); (217454823,15); (217415083,15);
(217375345,15); (217335608,15); (217295873,15); (217256138,15); (217216406,15); (217176674,15); (217136944,15); (217097215,15);
(217057488,15); (217017761,15); (216978037,15); (216938313,15); (216898591,15); (216858870,15); (216819151,15); (216779432,15);
(216739716,15); (216700000,15); (216660286,15); (216620573,15); (216580862,15); (216541151,15); (216501443,15); (216461735,15);
(216422029,15); (216382324,15); (216342621,15); (216302919,15); (216263218,15); (216223518,15); (216183820,15); (216144123,15);
(216104428,15); (216064734,15); (216025041,15); (215985349,15); (215945659,15); (215905970,15); (215866283,15); (215826597,15);
(215786912,15); (215747228,15); (215707546,15); (215667865,15); (215628186,15); (215588508,15); (215548831,15); (215509156,15);
(215469481,15); (215429809,15); (215390137,15); (215350467,15); (215310798,15); (215271131,15); (215231464,15); (215191800,15);
(215152136,15); (215112474,15); (215072813,15); (215033154,15); (214993495,15); (214953839,15); (214914183,15); (214874529,15);
(214834876,15); (214795224,15); (214755574,15); (214715925,15); (214676278,15); (214636632,15); (214596987,15); (214557343,15);
(214517701,15); (214478060,15); (214438421,15); (214398782,15); (214359146,15); (214319510,15); (214279876,15); (214240243,15);
(214200611,15); (214160981,15); (214121352,15); (214081725,15); (214042098,15); (214002474,15); (213962850,15); (213923228,15);
(213883607,15); (213843987,15); (213804369,15); (213764752,15); (213725136,15); (213685522,15); (213645909,15); (213606298,15);
(213566687,15); (213527078,15); (213487471,15); (213447864,15); (213408259,15); (213368656,15); (213329053,15); (213289452,15);
(213249853,15); (213210254,15); (213170657,15); (213131062,15); (213091467,15); (213051874,15); (213012283,15); (212972692,15);
(212933103,15); (212893516,15); (212853929,15); (212814344,15); (212774761,15); (212735178,15); (212695597,15); (212656017,15);
(212616439,15); (212576862,15); (212537286,15); (212497712,15); (212458139,15); (212418567,15); (212378996,15); (212339427,15);
(212299859,15); (212260293,15); (212220728,15); (212181164,15); (212141602,15); (212102040,15); (212062481,15); (212022922,15);
(211983365,15); (211943809,15); (211904255,15); (211864701,15); (211825149,15); (211785599,15); (211746050,15); (211706502,15);
(211666955,15); (211627410,15); (211587866,15); (211548323,15); (211508782,15); (211469242,15); (211429704,15); (211390166,15);
(211350630,15); (211311096,15); (211271562,15); (211232030,15); (211192500,15); (211152970,15); (211113442,15); (211073916,15);
(211034390,15); (210994866,15); (210955344,15); (210915822,15); (210876302,15); (210836783,15); (210797266,15); (210757750,15);
(210718235,15); (210678722,15); (210639210,15); (210599699,15); (210560189,15); (210520681,15); (210481174,15); (210441669,15);
(210402165,15); (210362662,15); (210323160,15); (210283660,15); (210244161,15); (210204664,15); (210165167,15); (210125672,15);
(210086179,15); (210046687,15); (210007196,15); (209967706,15); (209928218,15); (209888731,15); (209849245,15); (209809761,15);
(209770278,15); (209730796,15); (209691316,15); (209651837,15); (209612359,15); (209572883,15); (209533408,15); (209493934,15);
(209454461,15); (209414990,15); (209375520,15); (209336052,15); (209296585,15); (209257119,15); (209217655,15); (209178191,15);
(209138730,15); (209099269,15); (209059810,15); (209020352,15); (208980895,15); (208941440,15); (208901986,15); (208862534,15);
(208823082,15); (208783632,15); (208744184,15); (208704736,15); (208665290,15); (208625846,15); (208586402,15); (208546960,15);
(208507520,15); (208468080,15); (208428642,15); (208389205,15); (208349770,15); (208310336,15); (208270903,15); (208231472,15);
(208192041,15); (208152613,15); (208113185,15); (208073759,15); (208034334,15); (207994910,15); (207955488,15); (207916067,15);
(207876648,15); (207837229,15); (207797812,15); (207758397,15); (207718982,15); (207679569,15); (207640158,15); (207600747,15);
(207561338,15); (207521931,15); (207482524,15); (207443119,15); (207403715,15); (207364313,15); (207324912,15); (207285512,15);
(207246113,15); (207206716,15); (207167320,15); (207127926,15); (207088533,15); (207049141,15); (207009750,15); (206970361,15);
(206930973,15); (206891586,15); (206852201,15); (206812817,15); (206773434,15); (206734053,15); (206694673,15); (206655294,15);
(206615917,15); (206576541,15); (206537166,15); (206497793,15); (206458420,15); (206419050,15); (206379680,15); (206340312,15);
(206300945,15); (206261579,15); (206222215,15); (206182852,15); (206143491,15); (206104130,15); (206064771,15); (206025414,15);
(205986057,15); (205946702,15); (205907349,15); (205867996,15); (205828645,15); (205789295,15); (205749947,15); (205710600,15);
(205671254,15); (205631910,15); (205592566,15); (205553225,15); (205513884,15); (205474545,15); (205435207,15); (205395870,15);
(205356535,15); (205317201,15); (205277868,15); (205238537,15); (205199207,15); (205159878,15); (205120551,15); (205081225,15);
(205041900,15); (205002577,15); (204963254,15); (204923934,15); (204884614,15); (204845296,15); (204805979,15); (204766663,15);
(204727349,15); (204688036,15); (204648725,15); (204609414,15); (204570105,15); (204530798,15); (204491491,15); (204452186,15);
(204412883,15); (204373580,15); (204334279,15); (204294979,15); (204255681,15); (204216384,15); (204177088,15); (204137793,15);
(204098500,15); (204059208,15); (204019917,15); (203980628,15); (203941340,15); (203902053,15); (203862768,15); (203823484,15);
(203784201,15); (203744920,15); (203705640,15); (203666361,15); (203627083,15); (203587807,15); (203548532,15); (203509259,15);
(203469987,15); (203430716,15); (203391446,15); (203352178,15); (203312911,15); (203273645,15); (203234381,15); (203195118,15);
(203155856,15); (203116596,15); (203077336,15); (203038079,15); (202998822,15); (202959567,15); (202920313,15); (202881061,15);
(202841809,15); (202802559,15); (202763311,15); (202724063,15); (202684817,15); (202645573,15); (202606329,15); (202567087,15);
(202527847,15); (202488607,15); (202449369,15); (202410132,15); (202370897,15); (202331662,15); (202292429,15); (202253198,15);
(202213968,15); (202174739,15); (202135511,15); (202096285,15); (202057060,15); (202017836,15); (201978613,15); (201939392,15);
(201900173,15); (201860954,15); (201821737,15); (201782521,15); (201743306,15); (201704093,15); (201664881,15); (201625671,15);
(201586461,15); (201547253,15); (201508047,15); (201468841,15); (201429637,15); (201390434,15); (201351233,15); (201312033,15);
(201272834,15); (201233636,15); (201194440,15); (201155245,15); (201116051,15); (201076859,15); (201037668,15); (200998478,15);
(200959290,15); (200920103,15); (200880917,15); (200841733,15); (200802549,15); (200763368,15); (200724187,15); (200685008,15);
(200645830,15); (200606653,15); (200567478,15); (200528304,15); (200489131,15); (200449960,15); (200410790,15); (200371621,15);
(200332453,15); (200293287,15); (200254122,15); (200214959,15); (200175797,15); (200136636,15); (200097476,15); (200058318,15);
(200019161,15); (199980005,15); (199940851,15); (199901697,15); (199862546,15); (199823395,15); (199784246,15); (199745098,15);
(199705951,15); (199666806,15); (199627662,15); (199588520,15); (199549378,15); (199510238,15); (199471099,15); (199431962,15);
(199392826,15); (199353691,15); (199314558,15); (199275425,15); (199236294,15); (199197165,15); (199158036,15); (199118909,15);
(199079784,15); (199040659,15); (199001536,15); (198962415,15); (198923294,15); (198884175,15); (198845057,15); (198805940,15);
(198766825,15); (198727711,15); (198688599,15); (198649487,15); (198610377,15); (198571268,15); (198532161,15); (198493055,15);
(198453950,15); (198414847,15); (198375744,15); (198336643,15); (198297544,15); (198258446,15); (198219349,15); (198180253,15);
(198141158,15); (198102065,15); (198062974,15); (198023883,15); (197984794,15); (197945706,15); (197906619,15); (197867534,15);
(197828450,15); (197789367,15); (197750286,15); (197711206,15); (197672127,15); (197633050,15); (197593974,15); (197554899,15);
(197515825,15); (197476753,15); (197437682,15); (197398612,15); (197359544,15); (197320477,15); (197281411,15); (197242347,15);
(197203284,15); (197164222,15); (197125161,15); (197086102,15); (197047044,15); (197007987,15); (196968932,15); (196929878,15);
(196890825,15); (196851774,15); (196812724,15); (196773675,15); (196734627,15); (196695581,15); (196656536,15); (196617493,15);
(196578450,15); (196539409,15); (196500370,15); (196461331,15); (196422294,15); (196383258,15); (196344224,15); (196305190,15);
(196266159,15); (196227128,15); (196188099,15); (196149071,15); (196110044,15); (196071018,15); (196031994,15); (195992972,15);
(195953950,15); (195914930,15); (195875911,15); (195836893,15); (195797877,15); (195758862,15); (195719848,15); (195680836,15);
(195641825,15); (195602815,15); (195563806,15); (195524799,15); (195485793,15); (195446788,15); (195407785,15); (195368783,15);
(195329782,15); (195290783,15); (195251785,15); (195212788,15); (195173792,15); (195134798,15); (195095805,15); (195056813,15);
(195017823,15); (194978834,15); (194939846,15); (194900860,15); (194861875,15); (194822891,15); (194783908,15); (194744927,15);
(194705947,15); (194666968,15); (194627991,15); (194589015,15); (194550040,15); (194511067,15); (194472094,15); (194433124,15);
(194394154,15); (194355186,15); (194316219,15); (194277253,15); (194238289,15); (194199325,15); (194160364,15); (194121403,15);
(194082444,15); (194043486,15); (194004529,15); (193965574,15); (193926620,15); (193887667,15); (193848716,15); (193809766,15);
(193770817,15); (193731869,15); (193692923,15); (193653978,15); (193615034,15); (193576092,15); (193537151,15); (193498211,15);
(193459273,15); (193420335,15); (193381399,15); (193342465,15); (193303532,15); (193264600,15); (193225669,15); (193186739,15);
(193147811,15); (193108884,15); (193069959,15); (193031035,15); (192992112,15); (192953190,15); (192914270,15); (192875351,15);
(192836433,15); (192797516,15); (192758601,15); (192719687,15); (192680775,15); (192641863,15); (192602953,15); (192564045,15);
(192525137,15); (192486231,15); (192447326,15); (192408423,15); (192369521,15); (192330620,15); (192291720,15); (192252822,15);
(192213925,15); (192175029,15); (192136134,15); (192097241,15); (192058349,15); (192019459,15); (191980569,15); (191941681,15);
(191902795,15); (191863909,15); (191825025,15); (191786142,15); (191747261,15); (191708380,15); (191669501,15); (191630624,15);
(191591747,15); (191552872,15); (191513998,15); (191475126,15); (191436255,15); (191397385,15); (191358516,15); (191319649,15);
(191280783,15); (191241918,15); (191203055,15); (191164192,15); (191125331,15); (191086472,15); (191047614,15); (191008757,15);
(190969901,15); (190931046,15); (190892193,15); (190853341,15); (190814491,15); (190775642,15); (190736794,15); (190697947,15);
(190659102,15); (190620258,15); (190581415,15); (190542573,15); (190503733,15); (190464894,15); (190426056,15); (190387220,15);
(190348385,15); (190309551,15); (190270719,15); (190231888,15); (190193058,15); (190154229,15); (190115402,15); (190076576,15);
(190037751,15); (189998927,15); (189960105,15); (189921284,15); (189882465,15); (189843647,15); (189804830,15); (189766014,15);
(189727199,15); (189688386,15); (189649574,15); (189610764,15); (189571955,15); (189533147,15); (189494340,15); (189455534,15);
(189416730,15); (189377928,15); (189339126,15); (189300326,15); (189261527,15); (189222729,15); (189183933,15); (189145138,15);
(189106344,15); (189067551,15); (189028760,15); (188989970,15); (188951181,15); (188912394,15); (188873608,15); (188834823,15);
(188796040,15); (188757257,15); (188718477,15); (188679697,15); (188640919,15); (188602141,15); (188563366,15); (188524591,15);
(188485818,15); (188447046,15); (188408275,15); (188369506,15); (188330738,15); (188291971,15); (188253206,15); (188214442,15);
(188175679,15); (188136917,15); (188098157,15); (188059398,15); (188020640,15); (187981883,15); (187943128,15); (187904374,15);
(187865622,15); (187826870,15); (187788120,15); (187749371,15); (187710624,15); (187671878,15); (187633133,15); (187594389,15);
(187555647,15); (187516906,15); (187478166,15); (187439428,15); (187400690,15); (187361955,15); (187323220,15); (187284487,15);
(187245755,15); (187207024,15); (187168294,15); (187129566,15); (187090839,15); (187052114,15); (187013389,15); (186974666,15);
(186935944,15); (186897224,15); (186858505,15); (186819787,15); (186781070,15); (186742355,15); (186703641,15); (186664928,15);
(186626216,15); (186587506,15); (186548797,15); (186510090,15); (186471383,15); (186432678,15); (186393974,15); (186355272,15);
(186316571,15); (186277871,15); (186239172,15); (186200475,15); (186161779,15); (186123084,15); (186084390,15); (186045698,15);
(186007007,15); (185968317,15); (185929629,15); (185890942,15); (185852256,15); (185813571,15); (185774888,15); (185736206,15);
(185697525,15); (185658846,15); (185620168,15); (185581491,15); (185542816,15); (185504141,15); (185465468,15); (185426797,15);
(185388126,15); (185349457,15); (185310789,15); (185272122,15); (185233457,15); (185194793,15); (185156130,15); (185117469,15);
(185078809,15); (185040150,15); (185001492,15); (184962836,15); (184924181,15); (184885527,15); (184846874,15); (184808223,15);
(184769573,15); (184730925,15); (184692277,15); (184653631,15); (184614986,15); (184576343,15); (184537701,15); (184499060,15);
(184460420,15); (184421781,15); (184383144,15); (184344508,15); (184305874,15); (184267241,15); (184228609,15); (184189978,15);
(184151348,15); (184112720,15); (184074093,15); (184035468,15); (183996843,15); (183958220,15); (183919599,15); (183880978,15);
(183842359,15); (183803741,15); (183765124,15); (183726509,15); (183687895,15); (183649282,15); (183610671,15); (183572060,15);
(183533451,15); (183494844,15); (183456237,15); (183417632,15); (183379028,15); (183340426,15); (183301824,15); (183263224,15);
(183224625,15); (183186028,15); (183147432,15); (183108837,15); (183070243,15); (183031651,15); (182993060,15); (182954470,15);
(182915881,15); (182877294,15); (182838708,15); (182800124,15); (182761540,15); (182722958,15); (182684377,15); (182645798,15);
(182607219,15); (182568642,15); (182530067,15); (182491492,15); (182452919,15); (182414347,15); (182375776,15); (182337207,15);
(182298639,15); (182260072,15); (182221507,15); (182182942,15); (182144379,15); (182105818,15); (182067257,15); (182028698,15);
(181990140,15); (181951584,15); (181913028,15); (181874474,15); (181835921,15); (181797370,15); (181758820,15); (181720271,15);
(181681723,15); (181643177,15); (181604632,15); (181566088,15); (181527545,15); (181489004,15); (181450464,15); (181411925,15);
(181373388,15); (181334852,15); (181296317,15); (181257783,15); (181219251,15); (181180720,15); (181142190,15); (181103661,15);
(181065134,15); (181026608,15); (180988083,15); (180949560,15); (180911038,15); (180872517,15); (180833997,15); (180795479,15);
(180756962,15); (180718446,15); (180679932,15); (180641418,15); (180602906,15); (180564396,15); (180525886,15); (180487378,15);
(180448871,15); (180410366,15); (180371861,15); (180333358,15); (180294857,15); (180256356,15); (180217857,15); (180179359,15);
(180140862,15); (180102367,15); (180063873,15); (180025380,15); (179986888,15); (179948398,15); (179909909,15); (179871421,15);
(179832935,15); (179794449,15); (179755965,15); (179717483,15); (179679001,15); (179640521,15); (179602042,15); (179563565,15);
(179525089,15); (179486613,15); (179448140,15); (179409667,15); (179371196,15); (179332726,15); (179294257,15); (179255790,15);
(179217324,15); (179178859,15); (179140395,15); (179101933,15); (179063472,15); (179025012,15); (178986554,15); (178948097,15);
(178909641,15); (178871186,15); (178832732,15); (178794280,15); (178755829,15); (178717380,15); (178678932,15); (178640484,15);
(178602039,15); (178563594,15); (178525151,15); (178486709,15); (178448268,15); (178409829,15); (178371391,15); (178332954,15);
(178294518,15); (178256084,15); (178217651,15); (178179219,15); (178140788,15); (178102359,15); (178063931,15); (178025504,15);
(177987079,15); (177948655,15); (177910232,15); (177871810,15); (177833390,15); (177794971,15); (177756553,15); (177718136,15);
(177679721,15); (177641307,15); (177602894,15); (177564482,15); (177526072,15); (177487663,15); (177449256,15); (177410849,15);
(177372444,15); (177334040,15); (177295637,15); (177257236,15); (177218836,15); (177180437,15); (177142040,15); (177103643,15);
(177065248,15); (177026855,15); (176988462,15); (176950071,15); (176911681,15); (176873292,15); (176834905,15); (176796519,15);
(176758134,15); (176719750,15); (176681368,15); (176642987,15); (176604607,15); (176566229,15); (176527851,15); (176489475,15);
(176451101,15); (176412727,15); (176374355,15); (176335984,15); (176297615,15); (176259246,15); (176220879,15); (176182513,15);
(176144149,15); (176105785,15); (176067423,15); (176029062,15); (175990703,15); (175952345,15); (175913988,15); (175875632,15);
(175837278,15); (175798924,15); (175760572,15); (175722222,15); (175683872,15); (175645524,15); (175607177,15); (175568832,15);
(175530488,15); (175492144,15); (175453803,15); (175415462,15); (175377123,15); (175338785,15); (175300448,15); (175262113,15);
(175223778,15); (175185446,15); (175147114,15); (175108783,15); (175070454,15); (175032126,15); (174993800,15); (174955475,15);
(174917150,15); (174878828,15); (174840506,15); (174802186,15); (174763867,15); (174725549,15); (174687233,15); (174648917,15);
(174610603,15); (174572291,15); (174533979,15); (174495669,15); (174457360,15); (174419053,15); (174380746,15); (174342441,15);
(174304137,15); (174265835,15); (174227533,15); (174189233,15); (174150934,15); (174112637,15); (174074341,15); (174036046,15);
(173997752,15); (173959459,15); (173921168,15); (173882878,15); (173844590,15); (173806302,15); (173768016,15); (173729731,15);
(173691447,15); (173653165,15); (173614884,15); (173576604,15); (173538326,15); (173500048,15); (173461772,15); (173423497,15);
(173385224,15); (173346952,15); (173308681,15); (173270411,15); (173232142,15); (173193875,15); (173155609,15); (173117344,15);
(173079081,15); (173040819,15); (173002558,15); (172964298,15); (172926040,15); (172887783,15); (172849527,15); (172811272,15);
(172773019,15); (172734767,15); (172696516,15); (172658266,15); (172620018,15); (172581771,15); (172543525,15); (172505281,15);
(172467038,15); (172428796,15); (172390555,15); (172352315,15); (172314077,15); (172275840,15); (172237604,15); (172199370,15);
(172161137,15); (172122905,15); (172084674,15); (172046445,15); (172008217,15); (171969990,15); (171931764,15); (171893540,15);
(171855317,15); (171817095,15); (171778874,15); (171740655,15); (171702437,15); (171664220,15); (171626005,15); (171587790,15);
(171549577,15); (171511366,15); (171473155,15); (171434946,15); (171396738,15); (171358531,15); (171320326,15); (171282122,15);
(171243919,15); (171205717,15); (171167517,15); (171129317,15); (171091119,15); (171052923,15); (171014727,15); (170976533,15);
(170938340,15); (170900149,15); (170861958,15); (170823769,15); (170785582,15); (170747395,15); (170709210,15); (170671026,15);
(170632843,15); (170594661,15); (170556481,15); (170518302,15); (170480124,15); (170441948,15); (170403772,15); (170365598,15);
(170327426,15); (170289254,15); (170251084,15); (170212915,15); (170174747,15); (170136581,15); (170098415,15); (170060252,15);
(170022089,15); (169983927,15); (169945767,15); (169907608,15); (169869451,15); (169831294,15); (169793139,15); (169754985,15);
(169716833,15); (169678681,15); (169640531,15); (169602382,15); (169564235,15); (169526088,15); (169487943,15); (169449799,15);
(169411657,15); (169373515,15); (169335375,15); (169297236,15); (169259099,15); (169220963,15); (169182827,15); (169144694,15);
(169106561,15); (169068430,15); (169030300,15); (168992171,15); (168954044,15); (168915917,15); (168877792,15); (168839668,15);
(168801546,15); (168763425,15); (168725305,15); (168687186,15); (168649069,15); (168610952,15); (168572837,15); (168534724,15);
(168496611,15); (168458500,15); (168420390,15); (168382281,15); (168344174,15); (168306068,15); (168267963,15); (168229859,15);
(168191757,15); (168153655,15); (168115555,15); (168077457,15); (168039359,15); (168001263,15); (167963168,15); (167925075,15);
(167886982,15); (167848891,15); (167810801,15); (167772713,15); (167734625,15); (167696539,15); (167658454,15); (167620370,15);
(167582288,15); (167544207,15); (167506127,15); (167468048,15); (167429971,15); (167391895,15); (167353820,15); (167315746,15);
(167277674,15); (167239603,15); (167201533,15); (167163465,15); (167125397,15); (167087331,15); (167049266,15); (167011203,15);
(166973140,15); (166935079,15); (166897019,15); (166858961,15); (166820903,15); (166782847,15); (166744793,15); (166706739,15);
(166668687,15); (166630636,15); (166592586,15); (166554537,15); (166516490,15); (166478444,15); (166440399,15); (166402355,15);
(166364313,15); (166326272,15); (166288232,15); (166250194,15); (166212156,15); (166174120,15); (166136085,15); (166098052,15);
(166060020,15); (166021989,15); (165983959,15); (165945930,15); (165907903,15); (165869877,15); (165831852,15); (165793828,15);
(165755806,15); (165717785,15); (165679765,15); (165641747,15); (165603729,15); (165565713,15); (165527698,15); (165489685,15);
(165451673,15); (165413661,15); (165375652,15); (165337643,15); (165299636,15); (165261630,15); (165223625,15); (165185621,15);
(165147619,15); (165109618,15); (165071618,15); (165033620,15); (164995622,15); (164957626,15); (164919631,15); (164881638,15);
(164843645,15); (164805654,15); (164767664,15); (164729676,15); (164691689,15); (164653702,15); (164615718,15); (164577734,15);
(164539752,15); (164501771,15); (164463791,15); (164425812,15); (164387835,15); (164349859,15); (164311884,15); (164273910,15);
(164235938,15); (164197967,15); (164159997,15); (164122028,15); (164084061,15); (164046095,15); (164008130,15); (163970166,15);
(163932204,15); (163894243,15); (163856283,15); (163818324,15); (163780367,15); (163742411,15); (163704456,15); (163666502,15);
(163628550,15); (163590598,15); (163552649,15); (163514700,15); (163476752,15); (163438806,15); (163400861,15); (163362918,15);
(163324975,15); (163287034,15); (163249094,15); (163211155,15); (163173218,15); (163135282,15); (163097347,15); (163059413,15);
(163021480,15); (162983549,15); (162945619,15); (162907691,15); (162869763,15); (162831837,15); (162793912,15); (162755988,15);
(162718065,15); (162680144,15); (162642224,15); (162604305,15); (162566388,15); (162528472,15); (162490557,15); (162452643,15);
(162414730,15); (162376819,15); (162338909,15); (162301000,15); (162263092,15); (162225186,15); (162187281,15); (162149377,15);
(162111475,15); (162073573,15); (162035673,15); (161997774,15); (161959877,15); (161921980,15); (161884085,15); (161846191,15);
(161808298,15); (161770407,15); (161732517,15); (161694628,15); (161656740,15); (161618854,15); (161580969,15); (161543085,15);
(161505202,15); (161467321,15); (161429440,15); (161391561,15); (161353684,15); (161315807,15); (161277932,15); (161240058,15);
(161202185,15); (161164314,15); (161126443,15); (161088574,15); (161050706,15); (161012840,15); (160974975,15); (160937111,15);
(160899248,15); (160861386,15); (160823526,15); (160785667,15); (160747809,15); (160709952,15); (160672097,15); (160634243,15);
(160596390,15); (160558538,15); (160520688,15); (160482839,15); (160444991,15); (160407144,15); (160369299,15); (160331454,15);
(160293611,15); (160255770,15); (160217929,15); (160180090,15); (160142252,15); (160104415,15); (160066580,15); (160028745,15);
(159990912,15); (159953081,15); (159915250,15); (159877421,15); (159839593,15); (159801766,15); (159763940,15); (159726116,15);
(159688293,15); (159650471,15); (159612650,15); (159574831,15); (159537013,15); (159499196,15); (159461380,15); (159423566,15);
(159385753,15); (159347941,15); (159310130,15); (159272320,15); (159234512,15); (159196705,15); (159158899,15); (159121095,15);
(159083292,15); (159045490,15); (159007689,15); (158969889,15); (158932091,15); (158894294,15); (158856498,15); (158818703,15);
(158780910,15); (158743118,15); (158705327,15); (158667537,15); (158629749,15); (158591962,15); (158554176,15); (158516391,15);
(158478608,15); (158440825,15); (158403044,15); (158365265,15); (158327486,15); (158289709,15); (158251933,15); (158214158,15);
(158176385,15); (158138612,15); (158100841,15); (158063071,15); (158025303,15); (157987535,15); (157949769,15); (157912004,15);
(157874241,15); (157836478,15); (157798717,15); (157760957,15); (157723198,15); (157685441,15); (157647685,15); (157609930,15);
(157572176,15); (157534423,15); (157496672,15); (157458922,15); (157421173,15); (157383426,15); (157345679,15); (157307934,15);
(157270190,15); (157232448,15); (157194706,15); (157156966,15); (157119227,15); (157081490,15); (157043753,15); (157006018,15);
(156968284,15); (156930551,15); (156892820,15); (156855089,15); (156817360,15); (156779633,15); (156741906,15); (156704181,15);
(156666457,15); (156628734,15); (156591012,15); (156553292,15); (156515573,15); (156477855,15); (156440138,15); (156402422,15);
(156364708,15); (156326995,15); (156289284,15); (156251573,15); (156213864,15); (156176156,15); (156138449,15); (156100743,15);
(156063039,15); (156025336,15); (155987634,15); (155949933,15); (155912234,15); (155874536,15); (155836839,15); (155799143,15);
(155761449,15); (155723755,15); (155686063,15); (155648373,15); (155610683,15); (155572995,15); (155535308,15); (155497622,15);
(155459937,15); (155422254,15); (155384572,15); (155346891,15); (155309211,15); (155271533,15); (155233856,15); (155196180,15);
(155158505,15); (155120831,15); (155083159,15); (155045488,15); (155007818,15); (154970150,15); (154932482,15); (154894816,15);
(154857151,15); (154819488,15); (154781825,15); (154744164,15); (154706504,15); (154668846,15); (154631188,15); (154593532,15);
(154555877,15); (154518223,15); (154480570,15); (154442919,15); (154405269,15); (154367620,15); (154329973,15); (154292326,15);
(154254681,15); (154217037,15); (154179394,15); (154141753,15); (154104113,15); (154066474,15); (154028836,15); (153991199,15);
(153953564,15); (153915930,15); (153878297,15); (153840665,15); (153803035,15); (153765406,15); (153727778,15); (153690151,15);
(153652526,15); (153614901,15); (153577278,15); (153539657,15); (153502036,15); (153464417,15); (153426799,15); (153389182,15);
(153351566,15); (153313952,15); (153276339,15); (153238727,15); (153201116,15); (153163507,15); (153125898,15); (153088291,15);
(153050685,15); (153013081,15); (152975478,15); (152937875,15); (152900275,15); (152862675,15); (152825077,15); (152787479,15);
(152749883,15); (152712289,15); (152674695,15); (152637103,15); (152599512,15); (152561922,15); (152524333,15); (152486746,15);
(152449160,15); (152411575,15); (152373991,15); (152336409,15); (152298828,15); (152261248,15); (152223669,15); (152186091,15);
(152148515,15); (152110940,15); (152073366,15); (152035794,15); (151998222,15); (151960652,15); (151923083,15); (151885515,15);
(151847949,15); (151810384,15); (151772820,15); (151735257,15); (151697695,15); (151660135,15); (151622576,15); (151585018,15);
(151547461,15); (151509906,15); (151472352,15); (151434799,15); (151397247,15); (151359696,15); (151322147,15); (151284599,15);
(151247052,15); (151209507,15); (151171962,15); (151134419,15); (151096877,15); (151059336,15); (151021797,15); (150984259,15);
(150946722,15); (150909186,15); (150871651,15); (150834118,15); (150796586,15); (150759055,15); (150721525,15); (150683997,15);
(150646469,15); (150608943,15); (150571419,15); (150533895,15); (150496373,15); (150458852,15); (150421332,15); (150383813,15);
(150346296,15); (150308779,15); (150271264,15); (150233751,15); (150196238,15); (150158727,15); (150121217,15); (150083708,15);
(150046200,15); (150008694,15); (149971189,15); (149933685,15); (149896182,15); (149858680,15); (149821180,15); (149783681,15);
(149746183,15); (149708687,15); (149671191,15); (149633697,15); (149596204,15); (149558713,15); (149521222,15); (149483733,15);
(149446245,15); (149408758,15); (149371272,15); (149333788,15); (149296305,15); (149258823,15); (149221342,15); (149183863,15);
(149146384,15); (149108907,15); (149071432,15); (149033957,15); (148996484,15); (148959011,15); (148921541,15); (148884071,15);
(148846602,15); (148809135,15); (148771669,15); (148734204,15); (148696741,15); (148659278,15); (148621817,15); (148584357,15);
(148546899,15); (148509441,15); (148471985,15); (148434530,15); (148397076,15); (148359623,15); (148322172,15); (148284722,15);
(148247273,15); (148209825,15); (148172379,15); (148134934,15); (148097490,15); (148060047,15); (148022605,15); (147985165,15);
(147947726,15); (147910288,15); (147872851,15); (147835416,15); (147797981,15); (147760548,15); (147723117,15); (147685686,15);
(147648257,15); (147610828,15); (147573401,15); (147535976,15); (147498551,15); (147461128,15); (147423706,15); (147386285,15);
(147348865,15); (147311447,15); (147274030,15); (147236614,15); (147199199,15); (147161786,15); (147124373,15); (147086962,15);
(147049553,15); (147012144,15); (146974736,15); (146937330,15); (146899925,15); (146862522,15); (146825119,15); (146787718,15);
(146750318,15); (146712919,15); (146675521,15); (146638125,15); (146600729,15); (146563335,15); (146525943,15); (146488551,15);
(146451161,15); (146413772,15); (146376384,15); (146338997,15); (146301612,15); (146264227,15); (146226844,15); (146189462,15);
(146152082,15); (146114703,15); (146077324,15); (146039947,15); (146002572,15); (145965197,15); (145927824,15); (145890452,15);
(145853081,15); (145815711,15); (145778343,15); (145740976,15); (145703610,15); (145666245,15); (145628882,15); (145591519,15);
(145554158,15); (145516798,15); (145479440,15); (145442082,15); (145404726,15); (145367371,15); (145330017,15); (145292664,15);
(145255313,15); (145217963,15); (145180614,15); (145143266,15); (145105920,15); (145068574,15); (145031230,15); (144993888,15);
(144956546,15); (144919206,15); (144881866,15); (144844528,15); (144807192,15); (144769856,15); (144732522,15); (144695189,15);
(144657857,15); (144620526,15); (144583197,15); (144545868,15); (144508541,15); (144471215,15); (144433891,15); (144396567,15);
(144359245,15); (144321924,15); (144284605,15); (144247286,15); (144209969,15); (144172653,15); (144135338,15); (144098024,15);
(144060712,15); (144023400,15); (143986090,15); (143948781,15); (143911474,15); (143874168,15); (143836862,15); (143799558,15);
(143762256,15); (143724954,15); (143687654,15); (143650355,15); (143613057,15); (143575760,15); (143538465,15); (143501171,15);
(143463877,15); (143426586,15); (143389295,15); (143352006,15); (143314718,15); (143277431,15); (143240145,15); (143202860,15)].

(** entries 61440..63487 *)
Definition RECIPROCAL_30 : list (Z * Z) := [
(143165577,15); (143128295,15); (143091014,15); (143053734,15); (143016456,15); (142979179,15); (142941903,15); (142904628,15);
(142867354,15); (142830082,15); (142792811,15); (142755541,15); (142718272,15); (142681004,15); (142643738,15); (142606473,15);
(142569209,15); (142531946,15); (142494685,15); (142457425,15); (142420166,15); (142382908,15); (142345651,15); (142308396,15);
(142271142,15); (142233889,15); (142196637,15); (142159386,15); (142122137,15); (142084889,15); (142047642,15); (142010396,15);
(141973152,15); (141935908,15); (141898666,15); (141861425,15); (141824186,15); (141786947,15); (141749710,15); (141712474,15);
(141675239,15); (141638006,15); (141600773,15); (141563542,15); (141526312,15); (141489083,15); (141451856,15); (141414629,15);
(141377404,15); (141340180,15); (141302958,15); (141265736,15); (141228516,15); (141191297,15); (141154079,15); (141116862,15);
(141079647,15); (141042433,15); (141005220,15); (140968008,15); (140930797,15); (140893588,15); (140856380,15); (140819173,15);
(140781967,15); (140744762,15); (140707559,15); (140670357,15); (140633156,15); (140595956,15); (140558758,15); (140521561,15);
(140484365,15); (140447170,15); (140409976,15); (140372784,15); (140335592,15); (140298402,15); (140261213,15); (140224026,15);
(140186839,15); (140149654,15); (140112470,15); (140075287,15); (140038106,15); (140000926,15); (139963746,15); (139926568,15);
(139889392,15); (139852216,15); (139815042,15); (139777869,15); (139740697,15); (139703526,15); (139666357,15); (139629188,15);
(139592021,15); (139554855,15); (139517691,15); (139480527,15); (139443365,15); (139406204,15); (139369044,15); (139331886,15);
(139294728,15); (139257572,15); (139220417,15); (139183263,15); (139146111,15); (139108959,15); (139071809,15); (139034660,15);
(138997512,15); (138960366,15); (138923221,15); (138886076,15); (138848933,15); (138811792,15); (138774651,15); (138737512,15);
(138700374,15); (138663237,15); (138626101,15); (138588967,15); (138551834,15); (138514701,15); (138477571,15); (138440441,15);
(138403313,15); (138366185,15); (138329059,15); (138291934,15); (138254811,15); (138217688,15); (138180567,15); (138143447,15);
(138106328,15); (138069211,15); (138032094,15); (137994979,15); (137957865,15); (137920752,15); (137883641,15); (137846531,15);
(137809421,15); (137772313,15); (137735207,15); (137698101,15); (137660997,15); (137623894,15); (137586792,15); (137549691,15);
(137512592,15); (137475493,15); (137438396,15); (137401300,15); (137364206,15); (137327112,15); (137290020,15); (137252929,15);
(137215839,15); (137178750,15); (137141663,15); (137104576,15); (137067491,15); (137030407,15); (136993325,15); (136956243,15);
(136919163,15); (136882084,15); (136845006,15); (136807930,15); (136770854,15); (136733780,15); (136696707,15); (136659635,15);
(136622564,15); (136585495,15); (136548427,15); (136511360,15); (136474294,15); (136437229,15); (136400166,15); (136363104,15);
(136326043,15); (136288983,15); (136251924,15); (136214867,15); (136177811,15); (136140756,15); (136103702,15); (136066650,15);
(136029598,15); (135992548,15); (135955499,15); (135918451,15); (135881405,15); (135844359,15); (135807315,15); (135770272,15);
(135733230,15); (135696190,15); (135659151,15); (135622112,15); (135585075,15); (135548040,15); (135511005,15); (135473972,15);
(135436940,15); (135399909,15); (135362879,15); (135325850,15); (135288823,15); (135251797,15); (135214772,15); (135177748,15);
(135140726,15); (135103704,15); (135066684,15); (135029665,15); (134992648,15); (134955631,15); (134918616,15); (134881602,15);
(134844589,15); (134807577,15); (134770566,15); (134733557,15); (134696549,15); (134659542,15); (134622536,15); (134585532,15);
(134548528,15); (134511526,15); (134474525,15); (134437526,15); (134400527,15); (134363530,15); (134326534,15); (134289539,15);
(134252545,15); (134215553,15); (134178561,15); (134141571,15); (134104582,15); (134067594,15); (134030608,15); (133993623,15);
(133956638,15); (133919655,15); (133882674,15); (133845693,15); (133808714,15); (133771736,15); (133734759,15); (133697783,15);
(133660808,15); (133623835,15); (133586863,15); (133549892,15); (133512922,15); (133475954,15); (133438986,15); (133402020,15);
(133365055,15); (133328092,15); (133291129,15); (133254168,15); (133217207,15); (133180248,15); (133143291,15); (133106334,15);
(133069379,15); (133032425,15); (132995472,15); (132958520,15); (132921569,15); (132884620,15); (132847672,15); (132810725,15);
(132773779,15); (132736834,15); (132699891,15); (132662949,15); (132626008,15); (132589068,15); (132552129,15); (132515192,15);
(132478256,15); (132441321,15); (132404387,15); (132367454,15); (132330523,15); (132293592,15); (132256663,15); (132219736,15);
(132182809,15); (132145883,15); (132108959,15); (132072036,15); (132035114,15); (131998194,15); (131961274,15); (131924356,15);
(131887439,15); (131850523,15); (131813608,15); (131776695,15); (131739782,15); (131702871,15); (131665961,15); (131629053,15);
(131592145,15); (131555239,15); (131518334,15); (131481430,15); (131444527,15); (131407626,15); (131370725,15); (131333826,15);
(131296928,15); (131260031,15); (131223136,15); (131186242,15); (131149348,15); (131112456,15); (131075566,15); (131038676,15);
(131001788,15); (130964900,15); (130928014,15); (130891130,15); (130854246,15); (130817364,15); (130780482,15); (130743602,15);
(130706723,15); (130669846,15); (130632969,15); (130596094,15); (130559220,15); (130522347,15); (130485475,15); (130448605,15);
(130411736,15); (130374868,15); (130338001,15); (130301135,15); (130264270,15); (130227407,15); (130190545,15); (130153684,15);
(130116824,15); (130079966,15); (130043108,15); (130006252,15); (129969397,15); (129932544,15); (129895691,15); (129858840,15);
(129821989,15); (129785140,15); (129748292,15); (129711446,15); (129674600,15); (129637756,15); (129600913,15); (129564071,15);
(129527231,15); (129490391,15); (129453553,15); (129416716,15); (129379880,15); (129343045,15); (129306212,15); (129269379,15);
(129232548,15); (129195718,15); (129158890,15); (129122062,15); (129085236,15); (129048410,15); (129011586,15); (128974764,15);
(128937942,15); (128901122,15); (128864302,15); (128827484,15); (128790668,15); (128753852,15); (128717038,15); (128680224,15);
(128643412,15); (128606601,15); (128569792,15); (128532983,15); (128496176,15); (128459370,15); (128422565,15); (128385761,15);
(128348959,15); (128312157,15); (128275357,15); (128238558,15); (128201760,15); (128164964,15); (128128168,15); (128091374,15);
(128054581,15); (128017789,15); (127980999,15); (127944209,15); (127907421,15); (127870634,15); (127833848,15); (127797063,15);
(127760280,15); (127723497,15); (127686716,15); (127649936,15); (127613157,15); (127576380,15); (127539604,15); (127502828,15);
(127466054,15); (127429282,15); (127392510,15); (127355739,15); (127318970,15); (127282202,15); (127245435,15); (127208670,15);
(127171905,15); (127135142,15); (127098380,15); (127061619,15); (127024859,15); (126988101,15); (126951343,15); (126914587,15);
(126877832,15); (126841078,15); (126804326,15); (126767574,15); (126730824,15); (126694075,15); (126657327,15); (126620580,15);
(126583835,15); (126547091,15); (126510348,15); (126473606,15); (126436865,15); (126400125,15); (126363387,15); (126326650,15);
(126289914,15); (126253179,15); (126216445,15); (126179713,15); (126142982,15); (126106252,15); (126069523,15); (126032795,15);
(125996069,15); (125959343,15); (125922619,15); (125885896,15); (125849175,15); (125812454,15); (125775735,15); (125739017,15);
(125702300,15); (125665584,15); (125628869,15); (125592156,15); (125555443,15); (125518732,15); (125482023,15); (125445314,15);
(125408606,15); (125371900,15); (125335195,15); (125298491,15); (125261788,15); (125225087,15); (125188386,15); (125151687,15);
(125114989,15); (125078292,15); (125041596,15); (125004902,15); (124968209,15); (124931517,15); (124894826,15); (124858136,15);
(124821447,15); (124784760,15); (124748074,15); (124711389,15); (124674705,15); (124638022,15); (124601341,15); (124564661,15);
(124527982,15); (124491304,15); (124454627,15); (124417952,15); (124381277,15); (124344604,15); (124307932,15); (124271261,15);
(124234592,15); (124197923,15); (124161256,15); (124124590,15); (124087925,15); (124051261,15); (124014599,15); (123977938,15);
(123941278,15); (123904619,15); (123867961,15); (123831304,15); (123794649,15); (123757995,15); (123721342,15); (123684690,15);
(123648039,15); (123611390,15); (123574741,15); (123538094,15); (123501448,15); (123464804,15); (123428160,15); (123391518,15);
(123354876,15); (123318236,15); (123281598,15); (123244960,15); (123208323,15); (123171688,15); (123135054,15); (123098421,15);
(123061789,15); (123025159,15); (122988529,15); (122951901,15); (122915274,15); (122878648,15); (122842024,15); (122805400,15);
(122768778,15); (122732157,15); (122695537,15); (122658918,15); (122622301,15); (122585684,15); (122549069,15); (122512455,15);
(122475842,15); (122439230,15); (122402620,15); (122366011,15); (122329403,15); (122292796,15); (122256190,15); (122219585,15);
(122182982,15); (122146380,15); (122109779,15); (122073179,15); (122036580,15); (121999983,15); (121963386,15); (121926791,15);
(121890197,15); (121853604,15); (121817013,15); (121780422,15); (121743833,15); (121707245,15); (121670658,15); (121634073,15);
(121597488,15); (121560905,15); (121524323,15); (121487742,15); (121451162,15); (121414583,15); (121378006,15); (121341430,15);
(121304854,15); (121268281,15); (121231708,15); (121195136,15); (121158566,15); (121121997,15); (121085429,15); (121048862,15);
(121012296,15); (120975732,15); (120939169,15); (120902606,15); (120866046,15); (120829486,15); (120792927,15); (120756370,15);
(120719814,15); (120683259,15); (120646705,15); (120610152,15); (120573601,15); (120537050,15); (120500501,15); (120463953,15);
(120427406,15); (120390861,15); (120354316,15); (120317773,15); (120281231,15); (120244690,15); (120208150,15); (120171612,15);
(120135074,15); (120098538,15); (120062003,15); (120025469,15); (119988937,15); (119952405,15); (119915875,15); (119879346,15);
(119842818,15); (119806291,15); (119769765,15); (119733241,15); (119696718,15); (119660196,15); (119623675,15); (119587155,15);
(119550637,15); (119514119,15); (119477603,15); (119441088,15); (119404574,15); (119368062,15); (119331550,15); (119295040,15);
(119258531,15); (119222023,15); (119185516,15); (119149010,15); (119112506,15); (119076003,15); (119039501,15); (119003000,15);
(118966500,15); (118930001,15); (118893504,15); (118857008,15); (118820513,15); (118784019,15); (118747526,15); (118711035,15);
(118674544,15); (118638055,15); (118601567,15); (118565081,15); (118528595,15); (118492111,15); (118455627,15); (118419145,15);
(118382664,15); (118346185,15); (118309706,15); (118273229,15); (118236752,15); (118200277,15); (118163803,15); (118127331,15);
(118090859,15); (118054389,15); (118017920,15); (117981452,15); (117944985,15); (117908519,15); (117872055,15); (117835591,15);
(117799129,15); (117762668,15); (117726209,15); (117689750,15); (117653292,15); (117616836,15); (117580381,15); (117543927,15);
(117507474,15); (117471023,15); (117434573,15); (117398123,15); (117361675,15); (117325228,15); (117288783,15); (117252338,15);
(117215895,15); (117179453,15); (117143012,15); (117106572,15); (117070133,15); (117033696,15); (116997259,15); (116960824,15);
(116924390,15); (116887957,15); (116851526,15); (116815095,15); (116778666,15); (116742238,15); (116705811,15); (116669385,15);
(116632961,15); (116596537,15); (116560115,15); (116523694,15); (116487274,15); (116450855,15); (116414438,15); (116378021,15);
(116341606,15); (116305192,15); (116268779,15); (116232367,15); (116195957,15); (116159547,15); (116123139,15); (116086732,15);
(116050326,15); (116013922,15); (115977518,15); (115941116,15); (115904715,15); (115868315,15); (115831916,15); (115795518,15);
(115759122,15); (115722726,15); (115686332,15); (115649939,15); (115613547,15); (115577157,15); (115540767,15); (115504379,15);
(115467992,15); (115431606,15); (115395221,15); (115358838,15); (115322455,15); (115286074,15); (115249694,15); (115213315,15);
(115176937,15); (115140560,15); (115104185,15); (115067811,15); (115031438,15); (114995066,15); (114958695,15); (114922325,15);
(114885957,15); (114849590,15); (114813224,15); (114776859,15); (114740495,15); (114704132,15); (114667771,15); (114631411,15);
(114595052,15); (114558694,15); (114522337,15); (114485982,15); (114449627,15); (114413274,15); (114376922,15); (114340571,15);
(114304221,15); (114267873,15); (114231526,15); (114195179,15); (114158834,15); (114122490,15); (114086148,15); (114049806,15);
(114013466,15); (113977127,15); (113940789,15); (113904452,15); (113868116,15); (113831782,15); (113795448,15); (113759116,15);
(113722785,15); (113686455,15); (113650126,15); (113613799,15); (113577473,15); (113541147,15); (113504823,15); (113468500,15);
(113432179,15); (113395858,15); (113359539,15); (113323221,15); (113286904,15); (113250588,15); (113214273,15); (113177960,15);
(113141647,15); (113105336,15); (113069026,15); (113032717,15); (112996410,15); (112960103,15); (112923798,15); (112887494,15);
(112851191,15); (112814889,15); (112778588,15); (112742288,15); (112705990,15); (112669693,15); (112633397,15); (112597102,15);
(112560808,15); (112524516,15); (112488224,15); (112451934,15); (112415645,15); (112379357,15); (112343071,15); (112306785,15);
(112270501,15); (112234218,15); (112197936,15); (112161655,15); (112125375,15); (112089096,15); (112052819,15); (112016543,15);
(111980268,15); (111943994,15); (111907721,15); (111871450,15); (111835179,15); (111798910,15); (111762642,15); (111726375,15);
(111690109,15); (111653845,15); (111617581,15); (111581319,15); (111545058,15); (111508798,15); (111472539,15); (111436282,15);
(111400025,15); (111363770,15); (111327516,15); (111291263,15); (111255011,15); (111218761,15); (111182511,15); (111146263,15);
(111110016,15); (111073770,15); (111037525,15); (111001282,15); (110965039,15); (110928798,15); (110892558,15); (110856319,15);
(110820081,15); (110783844,15); (110747609,15); (110711374,15); (110675141,15); (110638909,15); (110602679,15); (110566449,15);
(110530220,15); (110493993,15); (110457767,15); (110421542,15); (110385318,15); (110349095,15); (110312874,15); (110276653,15);
(110240434,15); (110204216,15); (110167999,15); (110131784,15); (110095569,15); (110059356,15); (110023143,15); (109986932,15);
(109950722,15); (109914514,15); (109878306,15); (109842100,15); (109805894,15); (109769690,15); (109733487,15); (109697286,15);
(109661085,15); (109624885,15); (109588687,15); (109552490,15); (109516294,15); (109480099,15); (109443906,15); (109407713,15);
(109371522,15); (109335332,15); (109299143,15); (109262955,15); (109226768,15); (109190583,15); (109154398,15); (109118215,15);
(109082033,15); (109045852,15); (109009672,15); (108973494,15); (108937316,15); (108901140,15); (108864965,15); (108828791,15);
(108792618,15); (108756447,15); (108720276,15); (108684107,15); (108647939,15); (108611772,15); (108575606,15); (108539441,15);
(108503278,15); (108467116,15); (108430954,15); (108394794,15); (108358636,15); (108322478,15); (108286321,15); (108250166,15);
(108214012,15); (108177859,15); (108141707,15); (108105556,15); (108069406,15); (108033258,15); (107997111,15); (107960965,15);
(107924820,15); (107888676,15); (107852533,15); (107816392,15); (107780252,15); (107744112,15); (107707974,15); (107671838,15);
(107635702,15); (107599567,15); (107563434,15); (107527302,15); (107491171,15); (107455041,15); (107418912,15); (107382785,15);
(107346658,15); (107310533,15); (107274409,15); (107238286,15); (107202164,15); (107166043,15); (107129924,15); (107093806,15);
(107057688,15); (107021572,15); (106985458,15); (106949344,15); (106913231,15); (106877120,15); (106841010,15); (106804901,15);
(106768793,15); (106732686,15); (106696581,15); (106660476,15); (106624373,15); (106588271,15); (106552170,15); (106516070,15);
(106479971,15); (106443874,15); (106407777,15); (106371682,15); (106335588,15); (106299495,15); (106263404,15); (106227313,15);
(106191224,15); (106155135,15); (106119048,15); (106082962,15); (106046878,15); (106010794,15); (105974712,15); (105938630,15);
(105902550,15); (105866471,15); (105830393,15); (105794317,15); (105758241,15); (105722167,15); (105686093,15); (105650021,15);
(105613950,15); (105577881,15); (105541812,15); (105505745,15); (105469678,15); (105433613,15); (105397549,15); (105361486,15);
(105325425,15); (105289364,15); (105253305,15); (105217247,15); (105181189,15); (105145134,15); (105109079,15); (105073025,15);
(105036973,15); (105000921,15); (104964871,15); (104928822,15); (104892775,15); (104856728,15); (104820682,15); (104784638,15);
(104748595,15); (104712553,15); (104676512,15); (104640472,15); (104604433,15); (104568396,15); (104532360,15); (104496325,15);
(104460291,15); (104424258,15); (104388226,15); (104352196,15); (104316166,15); (104280138,15); (104244111,15); (104208085,15);
(104172060,15); (104136037,15); (104100014,15); (104063993,15); (104027973,15); (103991954,15); (103955936,15); (103919919,15);
(103883904,15); (103847889,15); (103811876,15); (103775864,15); (103739853,15); (103703843,15); (103667835,15); (103631827,15);
(103595821,15); (103559816,15); (103523812,15); (103487809,15); (103451807,15); (103415806,15); (103379807,15); (103343809,15);
(103307812,15); (103271816,15); (103235821,15); (103199827,15); (103163835,15); (103127843,15); (103091853,15); (103055864,15);
(103019876,15); (102983889,15); (102947904,15); (102911919,15); (102875936,15); (102839954,15); (102803973,15); (102767993,15);
(102732014,15); (102696037,15); (102660060,15); (102624085,15); (102588111,15); (102552138,15); (102516166,15); (102480196,15);
(102444226,15); (102408258,15); (102372291,15); (102336325,15); (102300360,15); (102264396,15); (102228433,15); (102192472,15);
(102156512,15); (102120552,15); (102084594,15); (102048638,15); (102012682,15); (101976727,15); (101940774,15); (101904822,15);
(101868871,15); (101832921,15); (101796972,15); (101761024,15); (101725078,15); (101689132,15); (101653188,15); (101617245,15);
(101581303,15); (101545362,15); (101509423,15); (101473484,15); (101437547,15); (101401611,15); (101365676,15); (101329742,15);
(101293809,15); (101257878,15); (101221947,15); (101186018,15); (101150090,15); (101114163,15); (101078237,15); (101042312,15);
(101006389,15); (100970466,15); (100934545,15); (100898625,15); (100862706,15); (100826788,15); (100790872,15); (100754956,15);
(100719042,15); (100683129,15); (100647217,15); (100611306,15); (100575396,15); (100539487,15); (100503580,15); (100467674,15);
(100431768,15); (100395864,15); (100359961,15); (100324060,15); (100288159,15); (100252260,15); (100216361,15); (100180464,15);
(100144568,15); (100108673,15); (100072780,15); (100036887,15); (100000996,15); (99965105,15); (99929216,15); (99893328,15);
(99857441,15); (99821556,15); (99785671,15); (99749788,15); (99713906,15); (99678024,15); (99642145,15); (99606266,15);
(99570388,15); (99534512,15); (99498636,15); (99462762,15); (99426889,15); (99391017,15); (99355146,15); (99319276,15);
(99283408,15); (99247541,15); (99211674,15); (99175809,15); (99139945,15); (99104083,15); (99068221,15); (99032361,15);
(98996501,15); (98960643,15); (98924786,15); (98888930,15); (98853075,15); (98817222,15); (98781369,15); (98745518,15);
(98709668,15); (98673819,15); (98637971,15); (98602124,15); (98566278,15); (98530434,15); (98494591,15); (98458748,15);
(98422907,15); (98387067,15); (98351229,15); (98315391,15); (98279555,15); (98243719,15); (98207885,15); (98172052,15);
(98136220,15); (98100390,15); (98064560,15); (98028732,15); (97992904,15); (97957078,15); (97921253,15); (97885429,15);
(97849606,15); (97813785,15); (97777964,15); (97742145,15); (97706327,15); (97670510,15); (97634694,15); (97598879,15);
(97563066,15); (97527253,15); (97491442,15); (97455632,15); (97419823,15); (97384015,15); (97348208,15); (97312403,15);
(97276598,15); (97240795,15); (97204993,15); (97169192,15); (97133392,15); (97097593,15); (97061795,15); (97025999,15);
(96990204,15); (96954409,15); (96918616,15); (96882824,15); (96847034,15); (96811244,15); (96775456,15); (96739668,15);
(96703882,15); (96668097,15); (96632313,15); (96596530,15); (96560749,15); (96524968,15); (96489189,15); (96453411,15);
(96417634,15); (96381858,15); (96346083,15); (96310309,15); (96274537,15); (96238765,15); (96202995,15); (96167226,15);
(96131458,15); (96095691,15); (96059926,15); (96024161,15); (95988398,15); (95952636,15); (95916875,15); (95881115,15);
(95845356,15); (95809598,15); (95773842,15); (95738086,15); (95702332,15); (95666579,15); (95630827,15); (95595076,15);
(95559326,15); (95523578,15); (95487830,15); (95452084,15); (95416339,15); (95380595,15); (95344852,15); (95309110,15);
(95273370,15); (95237630,15); (95201892,15); (95166155,15); (95130419,15); (95094684,15); (95058950,15); (95023218,15);
(94987486,15); (94951756,15); (94916027,15); (94880299,15); (94844572,15); (94808846,15); (94773121,15); (94737398,15);
(94701676,15); (94665954,15); (94630234,15); (94594515,15); (94558797,15); (94523081,15); (94487365,15); (94451651,15);
(94415938,15); (94380226,15); (94344515,15); (94308805,15); (94273096,15); (94237388,15); (94201682,15); (94165977,15);
(94130273,15); (94094570,15); (94058868,15); (94023167,15); (93987467,15); (93951769,15); (93916071,15); (93880375,15);
(93844680,15); (93808986,15); (93773294,15); (93737602,15); (93701911,15); (93666222,15); (93630534,15); (93594847,15);
(93559161,15); (93523476,15); (93487792,15); (93452110,15); (93416428,15); (93380748,15); (93345069,15); (93309391,15);
(93273714,15); (93238038,15); (93202364,15); (93166690,15); (93131018,15); (93095347,15); (93059677,15); (93024008,15);
(92988340,15); (92952673,15); (92917008,15); (92881343,15); (92845680,15); (92810018,15); (92774357,15); (92738697,15);
(92703038,15); (92667381,15); (92631724,15); (92596069,15); (92560415,15); (92524762,15); (92489110,15); (92453459,15);
(92417810,15); (92382161,15); (92346514,15); (92310868,15); (92275223,15); (92239579,15); (92203936,15); (92168294,15);
(92132654,15); (92097014,15); (92061376,15); (92025739,15); (91990103,15); (91954468,15); (91918834,15); (91883201,15);
(91847570,15); (91811940,15); (91776310,15); (91740682,15); (91705055,15); (91669430,15); (91633805,15); (91598181,15);
(91562559,15); (91526938,15); (91491318,15); (91455699,15); (91420081,15); (91384464,15); (91348848,15); (91313234,15);
(91277621,15); (91242008,15); (91206397,15); (91170787,15); (91135179,15); (91099571,15); (91063964,15); (91028359,15);
(90992755,15); (90957151,15); (90921549,15); (90885949,15); (90850349,15); (90814750,15); (90779153,15); (90743556,15);
(90707961,15); (90672367,15); (90636774,15); (90601182,15); (90565592,15); (90530002,15); (90494414,15); (90458826,15);
(90423240,15); (90387655,15); (90352071,15); (90316489,15); (90280907,15); (90245326,15); (90209747,15); (90174169,15);
(90138592,15); (90103016,15); (90067441,15); (90031867,15); (89996295,15); (89960723,15); (89925153,15); (89889584,15);
(89854016,15); (89818449,15); (89782883,15); (89747318,15); (89711755,15); (89676192,15); (89640631,15); (89605071,15);
(89569512,15); (89533954,15); (89498397,15); (89462841,15); (89427287,15); (89391734,15); (89356181,15); (89320630,15);
(89285080,15); (89249531,15); (89213984,15); (89178437,15); (89142892,15); (89107347,15); (89071804,15); (89036262,15);
(89000721,15); (88965181,15); (88929643,15); (88894105,15); (88858569,15); (88823033,15); (88787499,15); (88751966,15);
(88716434,15); (88680904,15); (88645374,15); (88609845,15); (88574318,15); (88538792,15); (88503267,15); (88467743,15);
(88432220,15); (88396698,15); (88361178,15); (88325658,15); (88290140,15); (88254622,15); (88219106,15); (88183591,15);
(88148078,15); (88112565,15); (88077053,15); (88041543,15); (88006033,15); (87970525,15); (87935018,15); (87899512,15);
(87864007,15); (87828504,15); (87793001,15); (87757500,15); (87721999,15); (87686500,15); (87651002,15); (87615505,15);
(87580010,15); (87544515,15); (87509021,15); (87473529,15); (87438038,15); (87402547,15); (87367058,15); (87331571,15);
(87296084,15); (87260598,15); (87225114,15); (87189630,15); (87154148,15); (87118667,15); (87083187,15); (87047708,15);
(87012230,15); (86976753,15); (86941278,15); (86905804,15); (86870330,15); (86834858,15); (86799387,15); (86763917,15);
(86728449,15); (86692981,15); (86657514,15); (86622049,15); (86586585,15); (86551122,15); (86515660,15); (86480199,15);
(86444739,15); (86409280,15); (86373823,15); (86338367,15); (86302911,15); (86267457,15); (86232004,15); (86196552,15);
(86161102,15); (86125652,15); (86090204,15); (86054756,15); (86019310,15); (85983865,15); (85948421,15); (85912978,15);
(85877536,15); (85842096,15); (85806656,15); (85771218,15); (85735781,15); (85700344,15); (85664909,15); (85629476,15);
(85594043,15); (85558611,15); (85523181,15); (85487751,15); (85452323,15); (85416896,15); (85381470,15); (85346045,15);
(85310621,15); (85275199,15); (85239777,15); (85204357,15); (85168938,15); (85133519,15); (85098102,15); (85062687,15);
(85027272,15); (84991858,15); (84956446,15); (84921034,15); (84885624,15); (84850215,15); (84814807,15); (84779400,15);
(84743994,15); (84708590,15); (84673186,15); (84637784,15); (84602382,15); (84566982,15); (84531583,15); (84496185,15);
(84460788,15); (84425393,15); (84389998,15); (84354605,15); (84319213,15); (84283821,15); (84248431,15); (84213042,15);
(84177655,15); (84142268,15); (84106882,15); (84071498,15); (84036115,15); (84000732,15); (83965351,15); (83929971,15);
(83894593,15); (83859215,15); (83823838,15); (83788463,15); (83753088,15); (83717715,15); (83682343,15); (83646972,15);
(83611602,15); (83576234,15); (83540866,15); (83505499,15); (83470134,15); (83434770,15); (83399407,15); (83364045,15);
(83328684,15); (83293324,15); (83257965,15); (83222608,15); (83187251,15); (83151896,15); (83116542,15); (83081189,15);
(83045837,15); (83010486,15); (82975137,15); (82939788,15); (82904441,15); (82869094,15); (82833749,15); (82798405,15);
(82763062,15); (82727720,15); (82692379,15); (82657040,15); (82621701,15); (82586364,15); (82551028,15); (82515693,15);
(82480359,15); (82445026,15); (82409694,15); (82374363,15); (82339034,15); (82303705,15); (82268378,15); (82233052,15);
(82197727,15); (82162403,15); (82127080,15); (82091759,15); (82056438,15); (82021119,15); (81985800,15); (81950483,15);
(81915167,15); (81879852,15); (81844538,15); (81809225,15); (81773914,15); (81738603,15); (81703294,15); (81667986,15);
(81632678,15); (81597372,15); (81562068,15); (81526764,15); (81491461,15); (81456160,15); (81420859,15); (81385560,15);
(81350262,15); (81314965,15); (81279669,15); (81244374,15); (81209080,15); (81173787,15); (81138496,15); (81103206,15);
(81067916,15); (81032628,15); (80997341,15); (80962055,15); (80926770,15); (80891487,15); (80856204,15); (80820923,15);
(80785642,15); (80750363,15); (80715085,15); (80679808,15); (80644532,15); (80609258,15); (80573984,15); (80538712,15);
(80503440,15); (80468170,15); (80432901,15); (80397633,15); (80362366,15); (80327100,15); (80291835,15); (80256572,15);
(80221309,15); (80186048,15); (80150788,15); (80115529,15); (80080271,15); (80045014,15); (80009758,15); (79974504,15);
(79939250,15); (79903998,15); (79868746,15); (79833496,15); (79798247,15); (79762999,15); (79727752,15); (79692507,15);
(79657262,15); (79622019,15); (79586776,15); (79551535,15); (79516295,15); (79481056,15); (79445818,15); (79410581,15);
(79375345,15); (79340111,15); (79304877,15); (79269645,15); (79234414,15); (79199184,15); (79163955,15); (79128727,15);
(79093500,15); (79058275,15); (79023050,15); (78987827,15); (78952604,15); (78917383,15); (78882163,15); (78846944,15);
(78811726,15); (78776510,15); (78741294,15); (78706080,15); (78670866,15); (78635654,15); (78600443,15); (78565233,15);
(78530024,15); (78494816,15); (78459609,15); (78424404,15); (78389199,15); (78353996,15); (78318794,15); (78283593,15);
(78248393,15); (78213194,15); (78177996,15); (78142799,15); (78107604,15); (78072409,15); (78037216,15); (78002024,15);
(77966833,15); (77931643,15); (77896454,15); (77861266,15); (77826079,15); (77790894,15); (77755709,15); (77720526,15);
(77685344,15); (77650163,15); (77614983,15); (77579804,15); (77544626,15); (77509449,15); (77474274,15); (77439099,15);
(77403926,15); (77368754,15); (77333583,15); (77298413,15); (77263244,15); (77228076,15); (77192910,15); (77157744,15);
(77122580,15); (77087416,15); (77052254,15); (77017093,15); (76981933,15); (76946774,15); (76911617,15); (76876460,15);
(76841304,15); (76806150,15); (76770997,15); (76735844,15); (76700693,15); (76665543,15); (76630395,15); (76595247,15);
(76560100,15); (76524955,15); (76489810,15); (76454667,15); (76419525,15); (76384384,15); (76349244,15); (76314105,15);
(76278967,15); (76243831,15); (76208695,15); (76173561,15); (76138427,15); (76103295,15); (76068164,15); (76033034,15);
(75997905,15); (75962777,15); (75927651,15); (75892525,15); (75857401,15); (75822277,15); (75787155,15); (75752034,15);
(75716914,15); (75681795,15); (75646678,15); (75611561,15); (75576445,15); (75541331,15); (75506218,15); (75471105,15);
(75435994,15); (75400884,15); (75365775,15); (75330668,15); (75295561,15); (75260455,15); (75225351,15); (75190247,15);
(75155145,15); (75120044,15); (75084944,15); (75049845,15); (75014747,15); (74979651,15); (74944555,15); (74909461,15);
(74874367,15); (74839275,15); (74804184,15); (74769094,15); (74734005,15); (74698917,15); (74663830,15); (74628745,15);
(74593660,15); (74558577,15); (74523494,15); (74488413,15); (74453333,15); (74418254,15); (74383176,15); (74348100,15);
(74313024,15); (74277949,15); (74242876,15); (74207804,15); (74172732,15); (74137662,15); (74102593,15); (74067525,15);
(74032459,15); (73997393,15); (73962328,15); (73927265,15); (73892203,15); (73857141,15); (73822081,15); (73787022,15);
(73751964,15); (73716907,15); (73681852,15); (73646797,15); (73611744,15); (73576691,15); (73541640,15); (73506590,15);
(73471541,15); (73436493,15); (73401446,15); (73366400,15); (73331355,15); (73296312,15); (73261269,15); (73226228,15);
(73191188,15); (73156149,15); (73121111,15); (73086074,15); (73051038,15); (73016003,15); (72980970,15); (72945937,15);
(72910906,15); (72875875,15); (72840846,15); (72805818,15); (72770791,15); (72735765,15); (72700741,15); (72665717,15);
(72630694,15); (72595673,15); (72560653,15); (72525633,15); (72490615,15); (72455598,15); (72420582,15); (72385567,15);
(72350554,15); (72315541,15); (72280530,15); (72245519,15); (72210510,15); (72175502,15); (72140495,15); (72105489,15);
(72070484,15); (72035480,15); (72000477,15); (71965476,15); (71930475,15); (71895476,15); (71860478,15); (71825481,15);
(71790485,15); (71755490,15); (71720496,15); (71685503,15); (71650511,15); (71615521,15); (71580531,15); (71545543,15);
(71510556,15); (71475570,15); (71440585,15); (71405601,15); (71370618,15); (71335636,15); (71300656,15); (71265676,15);
(71230698,15); (71195721,15); (71160744,15); (71125769,15); (71090795,15); (71055822,15); (71020851,15); (70985880,15);
(70950910,15); (70915942,15); (70880975,15); (70846008,15); (70811043,15); (70776079,15); (70741116,15); (70706154,15);
(70671194,15); (70636234,15); (70601275,15); (70566318,15); (70531362,15); (70496406,15); (70461452,15); (70426499,15);
(70391547,15); (70356596,15); (70321647,15); (70286698,15); (70251750,15); (70216804,15); (70181859,15); (70146914,15);
(70111971,15); (70077029,15); (70042088,15); (70007149,15); (69972210,15); (69937272,15); (69902336,15); (69867400,15);
(69832466,15); (69797533,15); (69762601,15); (69727670,15); (69692740,15); (69657811,15); (69622883,15); (69587957,15);
(69553031,15); (69518107,15); (69483183,15); (69448261,15); (69413340,15); (69378420,15); (69343501,15); (69308583,15)].

(** entries 63488..65535 *)
Definition RECIPROCAL_31 : list (Z * Z) := [
(69273667,15); (69238751,15); (69203836,15); (69168923,15); (69134011,15); (69099100,15); (69064189,15); (69029280,15);
(68994372,15); (68959466,15); (68924560,15); (68889655,15); (68854752,15); (68819849,15); (68784948,15); (68750048,15);
(68715149,15); (68680251,15); (68645354,15); (68610458,15); (68575563,15); (68540670,15); (68505777,15); (68470886,15);
(68435995,15); (68401106,15); (68366218,15); (68331331,15); (68296445,15); (68261560,15); (68226676,15); (68191794,15);
(68156912,15); (68122032,15); (68087152,15); (68052274,15); (68017397,15); (67982521,15); (67947646,15); (67912772,15);
(67877899,15); (67843028,15); (67808157,15); (67773288,15); (67738419,15); (67703552,15); (67668686,15); (67633821,15);
(67598957,15); (67564094,15); (67529232,15); (67494372,15); (67459512,15); (67424654,15); (67389796,15); (67354940,15);
(67320085,15); (67285231,15); (67250378,15); (67215526,15); (67180675,15); (67145825,15); (67110977,15); (67076129,15);
(67041283,15); (67006437,15); (66971593,15); (66936750,15); (66901908,15); (66867067,15); (66832227,15); (66797388,15);
(66762551,15); (66727714,15); (66692879,15); (66658044,15); (66623211,15); (66588379,15); (66553548,15); (66518718,15);
(66483889,15); (66449061,15); (66414234,15); (66379409,15); (66344584,15); (66309761,15); (66274939,15); (66240117,15);
(66205297,15); (66170478,15); (66135660,15); (66100844,15); (66066028,15); (66031213,15); (65996400,15); (65961587,15);
(65926776,15); (65891966,15); (65857156,15); (65822348,15); (65787541,15); (65752735,15); (65717931,15); (65683127,15);
(65648324,15); (65613523,15); (65578722,15); (65543923,15); (65509125,15); (65474328,15); (65439532,15); (65404737,15);
(65369943,15); (65335150,15); (65300359,15); (65265568,15); (65230779,15); (65195990,15); (65161203,15); (65126417,15);
(65091632,15); (65056848,15); (65022065,15); (64987283,15); (64952502,15); (64917723,15); (64882944,15); (64848167,15);
(64813390,15); (64778615,15); (64743841,15); (64709068,15); (64674296,15); (64639525,15); (64604755,15); (64569986,15);
(64535219,15); (64500452,15); (64465687,15); (64430923,15); (64396159,15); (64361397,15); (64326636,15); (64291876,15);
(64257117,15); (64222360,15); (64187603,15); (64152847,15); (64118093,15); (64083340,15); (64048587,15); (64013836,15);
(63979086,15); (63944337,15); (63909589,15); (63874842,15); (63840096,15); (63805352,15); (63770608,15); (63735866,15);
(63701124,15); (63666384,15); (63631645,15); (63596907,15); (63562170,15); (63527434,15); (63492699,15); (63457965,15);
(63423233,15); (63388501,15); (63353771,15); (63319041,15); (63284313,15); (63249586,15); (63214860,15); (63180135,15);
(63145411,15); (63110688,15); (63075966,15); (63041245,15); (63006526,15); (62971807,15); (62937090,15); (62902374,15);
(62867658,15); (62832944,15); (62798231,15); (62763519,15); (62728809,15); (62694099,15); (62659390,15); (62624683,15);
(62589976,15); (62555271,15); (62520566,15); (62485863,15); (62451161,15); (62416460,15); (62381760,15); (62347061,15);
(62312364,15); (62277667,15); (62242971,15); (62208277,15); (62173583,15); (62138891,15); (62104200,15); (62069510,15);
(62034821,15); (62000133,15); (61965446,15); (61930760,15); (61896076,15); (61861392,15); (61826709,15); (61792028,15);
(61757348,15); (61722668,15); (61687990,15); (61653313,15); (61618637,15); (61583962,15); (61549289,15); (61514616,15);
(61479944,15); (61445274,15); (61410604,15); (61375936,15); (61341269,15); (61306602,15); (61271937,15); (61237273,15);
(61202610,15); (61167949,15); (61133288,15); (61098628,15); (61063970,15); (61029312,15); (60994656,15); (60960000,15);
(60925346,15); (60890693,15); (60856041,15); (60821390,15); (60786740,15); (60752092,15); (60717444,15); (60682797,15);
(60648152,15); (60613507,15); (60578864,15); (60544222,15); (60509581,15); (60474940,15); (60440301,15); (60405664,15);
(60371027,15); (60336391,15); (60301756,15); (60267123,15); (60232490,15); (60197859,15); (60163229,15); (60128599,15);
(60093971,15); (60059344,15); (60024718,15); (59990093,15); (59955470,15); (59920847,15); (59886225,15); (59851605,15);
(59816985,15); (59782367,15); (59747750,15); (59713134,15); (59678519,15); (59643905,15); (59609292,15); (59574680,15);
(59540069,15); (59505459,15); (59470851,15); (59436243,15); (59401637,15); (59367032,15); (59332427,15); (59297824,15);
(59263222,15); (59228621,15); (59194021,15); (59159422,15); (59124825,15); (59090228,15); (59055632,15); (59021038,15);
(58986445,15); (58951852,15); (58917261,15); (58882671,15); (58848082,15); (58813494,15); (58778907,15); (58744321,15);
(58709737,15); (58675153,15); (58640570,15); (58605989,15); (58571409,15); (58536829,15); (58502251,15); (58467674,15);
(58433098,15); (58398523,15); (58363949,15); (58329376,15); (58294805,15); (58260234,15); (58225664,15); (58191096,15);
(58156529,15); (58121962,15); (58087397,15); (58052833,15); (58018270,15); (57983708,15); (57949147,15); (57914587,15);
(57880029,15); (57845471,15); (57810914,15); (57776359,15); (57741805,15); (57707251,15); (57672699,15); (57638148,15);
(57603598,15); (57569049,15); (57534501,15); (57499954,15); (57465409,15); (57430864,15); (57396320,15); (57361778,15);
(57327237,15); (57292696,15); (57258157,15); (57223619,15); (57189082,15); (57154546,15); (57120011,15); (57085477,15);
(57050945,15); (57016413,15); (56981882,15); (56947353,15); (56912824,15); (56878297,15); (56843771,15); (56809246,15);
(56774722,15); (56740199,15); (56705677,15); (56671156,15); (56636636,15); (56602118,15); (56567600,15); (56533083,15);
(56498568,15); (56464054,15); (56429540,15); (56395028,15); (56360517,15); (56326007,15); (56291498,15); (56256990,15);
(56222484,15); (56187978,15); (56153473,15); (56118970,15); (56084467,15); (56049966,15); (56015466,15); (55980966,15);
(55946468,15); (55911971,15); (55877475,15); (55842980,15); (55808487,15); (55773994,15); (55739502,15); (55705012,15);
(55670522,15); (55636034,15); (55601546,15); (55567060,15); (55532575,15); (55498091,15); (55463608,15); (55429126,15);
(55394645,15); (55360165,15); (55325687,15); (55291209,15); (55256732,15); (55222257,15); (55187783,15); (55153309,15);
(55118837,15); (55084366,15); (55049896,15); (55015427,15); (54980959,15); (54946492,15); (54912026,15); (54877562,15);
(54843098,15); (54808636,15); (54774174,15); (54739714,15); (54705255,15); (54670796,15); (54636339,15); (54601883,15);
(54567428,15); (54532974,15); (54498522,15); (54464070,15); (54429619,15); (54395170,15); (54360721,15); (54326274,15);
(54291827,15); (54257382,15); (54222938,15); (54188495,15); (54154053,15); (54119612,15); (54085172,15); (54050733,15);
(54016295,15); (53981859,15); (53947423,15); (53912989,15); (53878555,15); (53844123,15); (53809692,15); (53775262,15);
(53740833,15); (53706405,15); (53671978,15); (53637552,15); (53603127,15); (53568703,15); (53534281,15); (53499859,15);
(53465439,15); (53431019,15); (53396601,15); (53362184,15); (53327767,15); (53293352,15); (53258938,15); (53224525,15);
(53190113,15); (53155703,15); (53121293,15); (53086884,15); (53052477,15); (53018070,15); (52983665,15); (52949260,15);
(52914857,15); (52880455,15); (52846054,15); (52811654,15); (52777255,15); (52742857,15); (52708460,15); (52674064,15);
(52639670,15); (52605276,15); (52570884,15); (52536492,15); (52502102,15); (52467713,15); (52433324,15); (52398937,15);
(52364551,15); (52330166,15); (52295782,15); (52261399,15); (52227018,15); (52192637,15); (52158257,15); (52123879,15);
(52089501,15); (52055125,15); (52020750,15); (51986375,15); (51952002,15); (51917630,15); (51883259,15); (51848889,15);
(51814520,15); (51780153,15); (51745786,15); (51711420,15); (51677056,15); (51642692,15); (51608330,15); (51573968,15);
(51539608,15); (51505249,15); (51470891,15); (51436534,15); (51402178,15); (51367823,15); (51333469,15); (51299116,15);
(51264765,15); (51230414,15); (51196064,15); (51161716,15); (51127368,15); (51093022,15); (51058677,15); (51024333,15);
(50989990,15); (50955648,15); (50921307,15); (50886967,15); (50852628,15); (50818290,15); (50783954,15); (50749618,15);
(50715283,15); (50680950,15); (50646618,15); (50612286,15); (50577956,15); (50543627,15); (50509299,15); (50474972,15);
(50440646,15); (50406321,15); (50371997,15); (50337675,15); (50303353,15); (50269032,15); (50234713,15); (50200394,15);
(50166077,15); (50131761,15); (50097445,15); (50063131,15); (50028818,15); (49994506,15); (49960195,15); (49925885,15);
(49891577,15); (49857269,15); (49822962,15); (49788657,15); (49754352,15); (49720049,15); (49685746,15); (49651445,15);
(49617145,15); (49582846,15); (49548548,15); (49514251,15); (49479955,15); (49445660,15); (49411366,15); (49377073,15);
(49342782,15); (49308491,15); (49274202,15); (49239913,15); (49205626,15); (49171339,15); (49137054,15); (49102770,15);
(49068487,15); (49034205,15); (48999924,15); (48965644,15); (48931365,15); (48897087,15); (48862811,15); (48828535,15);
(48794261,15); (48759987,15); (48725715,15); (48691443,15); (48657173,15); (48622904,15); (48588636,15); (48554369,15);
(48520103,15); (48485838,15); (48451574,15); (48417311,15); (48383050,15); (48348789,15); (48314529,15); (48280271,15);
(48246014,15); (48211757,15); (48177502,15); (48143248,15); (48108995,15); (48074742,15); (48040491,15); (48006242,15);
(47971993,15); (47937745,15); (47903498,15); (47869252,15); (47835008,15); (47800764,15); (47766522,15); (47732280,15);
(47698040,15); (47663801,15); (47629563,15); (47595326,15); (47561089,15); (47526854,15); (47492621,15); (47458388,15);
(47424156,15); (47389925,15); (47355696,15); (47321467,15); (47287239,15); (47253013,15); (47218788,15); (47184563,15);
(47150340,15); (47116118,15); (47081897,15); (47047677,15); (47013458,15); (46979240,15); (46945023,15); (46910807,15);
(46876593,15); (46842379,15); (46808166,15); (46773955,15); (46739744,15); (46705535,15); (46671327,15); (46637119,15);
(46602913,15); (46568708,15); (46534504,15); (46500301,15); (46466099,15); (46431898,15); (46397699,15); (46363500,15);
(46329302,15); (46295106,15); (46260910,15); (46226716,15); (46192522,15); (46158330,15); (46124139,15); (46089949,15);
(46055760,15); (46021571,15); (45987385,15); (45953199,15); (45919014,15); (45884830,15); (45850647,15); (45816466,15);
(45782285,15); (45748105,15); (45713927,15); (45679750,15); (45645573,15); (45611398,15); (45577224,15); (45543051,15);
(45508879,15); (45474708,15); (45440538,15); (45406369,15); (45372201,15); (45338034,15); (45303869,15); (45269704,15);
(45235540,15); (45201378,15); (45167216,15); (45133056,15); (45098897,15); (45064739,15); (45030581,15); (44996425,15);
(44962270,15); (44928116,15); (44893963,15); (44859812,15); (44825661,15); (44791511,15); (44757362,15); (44723215,15);
(44689068,15); (44654923,15); (44620778,15); (44586635,15); (44552493,15); (44518352,15); (44484212,15); (44450072,15);
(44415934,15); (44381797,15); (44347662,15); (44313527,15); (44279393,15); (44245260,15); (44211129,15); (44176998,15);
(44142869,15); (44108740,15); (44074613,15); (44040486,15); (44006361,15); (43972237,15); (43938114,15); (43903992,15);
(43869871,15); (43835751,15); (43801632,15); (43767514,15); (43733397,15); (43699282,15); (43665167,15); (43631053,15);
(43596941,15); (43562829,15); (43528719,15); (43494610,15); (43460502,15); (43426394,15); (43392288,15); (43358183,15);
(43324079,15); (43289976,15); (43255874,15); (43221773,15); (43187674,15); (43153575,15); (43119477,15); (43085381,15);
(43051285,15); (43017191,15); (42983097,15); (42949005,15); (42914914,15); (42880824,15); (42846734,15); (42812646,15);
(42778559,15); (42744473,15); (42710388,15); (42676304,15); (42642222,15); (42608140,15); (42574059,15); (42539980,15);
(42505901,15); (42471824,15); (42437747,15); (42403672,15); (42369598,15); (42335524,15); (42301452,15); (42267381,15);
(42233311,15); (42199242,15); (42165174,15); (42131107,15); (42097041,15); (42062977,15); (42028913,15); (41994850,15);
(41960789,15); (41926728,15); (41892669,15); (41858610,15); (41824553,15); (41790497,15); (41756441,15); (41722387,15);
(41688334,15); (41654282,15); (41620231,15); (41586181,15); (41552132,15); (41518084,15); (41484038,15); (41449992,15);
(41415947,15); (41381904,15); (41347861,15); (41313820,15); (41279779,15); (41245740,15); (41211702,15); (41177665,15);
(41143628,15); (41109593,15); (41075559,15); (41041526,15); (41007494,15); (40973464,15); (40939434,15); (40905405,15);
(40871377,15); (40837351,15); (40803325,15); (40769301,15); (40735277,15); (40701255,15); (40667233,15); (40633213,15);
(40599194,15); (40565176,15); (40531159,15); (40497143,15); (40463128,15); (40429114,15); (40395101,15); (40361089,15);
(40327078,15); (40293068,15); (40259060,15); (40225052,15); (40191046,15); (40157040,15); (40123036,15); (40089032,15);
(40055030,15); (40021029,15); (39987029,15); (39953029,15); (39919031,15); (39885034,15); (39851038,15); (39817043,15);
(39783050,15); (39749057,15); (39715065,15); (39681074,15); (39647085,15); (39613096,15); (39579109,15); (39545122,15);
(39511137,15); (39477152,15); (39443169,15); (39409187,15); (39375206,15); (39341226,15); (39307246,15); (39273268,15);
(39239292,15); (39205316,15); (39171341,15); (39137367,15); (39103394,15); (39069423,15); (39035452,15); (39001482,15);
(38967514,15); (38933546,15); (38899580,15); (38865615,15); (38831650,15); (38797687,15); (38763725,15); (38729764,15);
(38695804,15); (38661845,15); (38627887,15); (38593930,15); (38559974,15); (38526019,15); (38492066,15); (38458113,15);
(38424161,15); (38390211,15); (38356261,15); (38322313,15); (38288365,15); (38254419,15); (38220474,15); (38186529,15);
(38152586,15); (38118644,15); (38084703,15); (38050763,15); (38016824,15); (37982886,15); (37948949,15); (37915013,15);
(37881079,15); (37847145,15); (37813212,15); (37779281,15); (37745350,15); (37711421,15); (37677492,15); (37643565,15);
(37609638,15); (37575713,15); (37541789,15); (37507866,15); (37473944,15); (37440022,15); (37406102,15); (37372184,15);
(37338266,15); (37304349,15); (37270433,15); (37236518,15); (37202605,15); (37168692,15); (37134780,15); (37100870,15);
(37066960,15); (37033052,15); (36999144,15); (36965238,15); (36931333,15); (36897429,15); (36863525,15); (36829623,15);
(36795722,15); (36761822,15); (36727923,15); (36694025,15); (36660129,15); (36626233,15); (36592338,15); (36558444,15);
(36524552,15); (36490660,15); (36456770,15); (36422880,15); (36388992,15); (36355104,15); (36321218,15); (36287333,15);
(36253448,15); (36219565,15); (36185683,15); (36151802,15); (36117922,15); (36084043,15); (36050165,15); (36016288,15);
(35982412,15); (35948538,15); (35914664,15); (35880791,15); (35846920,15); (35813049,15); (35779180,15); (35745311,15);
(35711444,15); (35677577,15); (35643712,15); (35609848,15); (35575984,15); (35542122,15); (35508261,15); (35474401,15);
(35440542,15); (35406684,15); (35372827,15); (35338971,15); (35305117,15); (35271263,15); (35237410,15); (35203558,15);
(35169708,15); (35135858,15); (35102010,15); (35068162,15); (35034316,15); (35000471,15); (34966626,15); (34932783,15);
(34898941,15); (34865100,15); (34831260,15); (34797420,15); (34763582,15); (34729746,15); (34695910,15); (34662075,15);
(34628241,15); (34594408,15); (34560576,15); (34526746,15); (34492916,15); (34459088,15); (34425260,15); (34391434,15);
(34357608,15); (34323784,15); (34289960,15); (34256138,15); (34222317,15); (34188497,15); (34154678,15); (34120860,15);
(34087043,15); (34053227,15); (34019412,15); (33985598,15); (33951785,15); (33917973,15); (33884162,15); (33850353,15);
(33816544,15); (33782736,15); (33748930,15); (33715124,15); (33681320,15); (33647516,15); (33613714,15); (33579913,15);
(33546113,15); (33512313,15); (33478515,15); (33444718,15); (33410922,15); (33377127,15); (33343333,15); (33309540,15);
(33275748,15); (33241957,15); (33208167,15); (33174379,15); (33140591,15); (33106804,15); (33073019,15); (33039234,15);
(33005451,15); (32971668,15); (32937887,15); (32904106,15); (32870327,15); (32836549,15); (32802772,15); (32768995,15);
(32735220,15); (32701446,15); (32667673,15); (32633901,15); (32600130,15); (32566360,15); (32532591,15); (32498824,15);
(32465057,15); (32431291,15); (32397526,15); (32363763,15); (32330000,15); (32296239,15); (32262478,15); (32228719,15);
(32194960,15); (32161203,15); (32127447,15); (32093691,15); (32059937,15); (32026184,15); (31992432,15); (31958681,15);
(31924931,15); (31891182,15); (31857434,15); (31823687,15); (31789941,15); (31756196,15); (31722453,15); (31688710,15);
(31654968,15); (31621228,15); (31587488,15); (31553749,15); (31520012,15); (31486275,15); (31452540,15); (31418806,15);
(31385072,15); (31351340,15); (31317609,15); (31283879,15); (31250150,15); (31216421,15); (31182694,15); (31148968,15);
(31115243,15); (31081520,15); (31047797,15); (31014075,15); (30980354,15); (30946634,15); (30912916,15); (30879198,15);
(30845481,15); (30811766,15); (30778051,15); (30744338,15); (30710625,15); (30676914,15); (30643204,15); (30609494,15);
(30575786,15); (30542079,15); (30508373,15); (30474667,15); (30440963,15); (30407260,15); (30373558,15); (30339857,15);
(30306157,15); (30272459,15); (30238761,15); (30205064,15); (30171368,15); (30137674,15); (30103980,15); (30070287,15);
(30036596,15); (30002905,15); (29969216,15); (29935527,15); (29901840,15); (29868153,15); (29834468,15); (29800784,15);
(29767101,15); (29733418,15); (29699737,15); (29666057,15); (29632378,15); (29598700,15); (29565023,15); (29531347,15);
(29497672,15); (29463998,15); (29430326,15); (29396654,15); (29362983,15); (29329313,15); (29295645,15); (29261977,15);
(29228310,15); (29194645,15); (29160980,15); (29127317,15); (29093655,15); (29059993,15); (29026333,15); (28992674,15);
(28959015,15); (28925358,15); (28891702,15); (28858047,15); (28824393,15); (28790740,15); (28757088,15); (28723437,15);
(28689787,15); (28656138,15); (28622490,15); (28588843,15); (28555198,15); (28521553,15); (28487909,15); (28454267,15);
(28420625,15); (28386985,15); (28353345,15); (28319707,15); (28286069,15); (28252433,15); (28218797,15); (28185163,15);
(28151530,15); (28117898,15); (28084266,15); (28050636,15); (28017007,15); (27983379,15); (27949752,15); (27916126,15);
(27882501,15); (27848877,15); (27815254,15); (27781633,15); (27748012,15); (27714392,15); (27680773,15); (27647156,15);
(27613539,15); (27579923,15); (27546309,15); (27512695,15); (27479083,15); (27445471,15); (27411861,15); (27378252,15);
(27344643,15); (27311036,15); (27277430,15); (27243825,15); (27210220,15); (27176617,15); (27143015,15); (27109414,15);
(27075814,15); (27042215,15); (27008617,15); (26975020,15); (26941424,15); (26907830,15); (26874236,15); (26840643,15);
(26807051,15); (26773461,15); (26739871,15); (26706282,15); (26672695,15); (26639108,15); (26605523,15); (26571938,15);
(26538355,15); (26504773,15); (26471191,15); (26437611,15); (26404032,15); (26370454,15); (26336876,15); (26303300,15);
(26269725,15); (26236151,15); (26202578,15); (26169006,15); (26135435,15); (26101865,15); (26068296,15); (26034728,15);
(26001162,15); (25967596,15); (25934031,15); (25900467,15); (25866905,15); (25833343,15); (25799782,15); (25766223,15);
(25732664,15); (25699107,15); (25665550,15); (25631995,15); (25598441,15); (25564887,15); (25531335,15); (25497784,15);
(25464233,15); (25430684,15); (25397136,15); (25363589,15); (25330043,15); (25296498,15); (25262954,15); (25229411,15);
(25195869,15); (25162328,15); (25128788,15); (25095249,15); (25061711,15); (25028175,15); (24994639,15); (24961104,15);
(24927571,15); (24894038,15); (24860506,15); (24826976,15); (24793446,15); (24759918,15); (24726390,15); (24692864,15);
(24659339,15); (24625814,15); (24592291,15); (24558769,15); (24525247,15); (24491727,15); (24458208,15); (24424690,15);
(24391173,15); (24357657,15); (24324142,15); (24290628,15); (24257115,15); (24223603,15); (24190092,15); (24156582,15);
(24123073,15); (24089565,15); (24056059,15); (24022553,15); (23989048,15); (23955545,15); (23922042,15); (23888540,15);
(23855040,15); (23821540,15); (23788042,15); (23754544,15); (23721048,15); (23687553,15); (23654058,15); (23620565,15);
(23587073,15); (23553581,15); (23520091,15); (23486602,15); (23453114,15); (23419627,15); (23386140,15); (23352655,15);
(23319171,15); (23285688,15); (23252206,15); (23218726,15); (23185246,15); (23151767,15); (23118289,15); (23084812,15);
(23051336,15); (23017862,15); (22984388,15); (22950915,15); (22917444,15); (22883973,15); (22850503,15); (22817035,15);
(22783567,15); (22750101,15); (22716636,15); (22683171,15); (22649708,15); (22616245,15); (22582784,15); (22549324,15);
(22515865,15); (22482406,15); (22448949,15); (22415493,15); (22382038,15); (22348584,15); (22315131,15); (22281679,15);
(22248228,15); (22214778,15); (22181329,15); (22147881,15); (22114434,15); (22080988,15); (22047543,15); (22014100,15);
(21980657,15); (21947215,15); (21913775,15); (21880335,15); (21846896,15); (21813459,15); (21780022,15); (21746587,15);
(21713152,15); (21679719,15); (21646286,15); (21612855,15); (21579424,15); (21545995,15); (21512567,15); (21479139,15);
(21445713,15); (21412288,15); (21378864,15); (21345441,15); (21312018,15); (21278597,15); (21245177,15); (21211758,15);
(21178340,15); (21144923,15); (21111507,15); (21078092,15); (21044678,15); (21011266,15); (20977854,15); (20944443,15);
(20911033,15); (20877624,15); (20844217,15); (20810810,15); (20777404,15); (20744000,15); (20710596,15); (20677194,15);
(20643792,15); (20610392,15); (20576992,15); (20543594,15); (20510196,15); (20476800,15); (20443404,15); (20410010,15);
(20376617,15); (20343224,15); (20309833,15); (20276443,15); (20243054,15); (20209666,15); (20176278,15); (20142892,15);
(20109507,15); (20076123,15); (20042740,15); (20009358,15); (19975977,15); (19942597,15); (19909218,15); (19875841,15);
(19842464,15); (19809088,15); (19775713,15); (19742339,15); (19708967,15); (19675595,15); (19642224,15); (19608854,15);
(19575486,15); (19542118,15); (19508752,15); (19475386,15); (19442022,15); (19408658,15); (19375296,15); (19341934,15);
(19308574,15); (19275214,15); (19241856,15); (19208499,15); (19175142,15); (19141787,15); (19108433,15); (19075080,15);
(19041727,15); (19008376,15); (18975026,15); (18941677,15); (18908329,15); (18874982,15); (18841636,15); (18808291,15);
(18774947,15); (18741604,15); (18708262,15); (18674921,15); (18641581,15); (18608242,15); (18574904,15); (18541568,15);
(18508232,15); (18474897,15); (18441563,15); (18408231,15); (18374899,15); (18341568,15); (18308239,15); (18274910,15);
(18241583,15); (18208256,15); (18174931,15); (18141606,15); (18108283,15); (18074960,15); (18041639,15); (18008318,15);
(17974999,15); (17941681,15); (17908363,15); (17875047,15); (17841732,15); (17808418,15); (17775104,15); (17741792,15);
(17708481,15); (17675171,15); (17641862,15); (17608554,15); (17575247,15); (17541941,15); (17508636,15); (17475332,15);
(17442029,15); (17408727,15); (17375426,15); (17342126,15); (17308827,15); (17275529,15); (17242232,15); (17208937,15);
(17175642,15); (17142348,15); (17109055,15); (17075764,15); (17042473,15); (17009183,15); (16975895,15); (16942607,15);
(16909321,15); (16876035,15); (16842750,15); (16809467,15); (16776185,15); (16742903,15); (16709623,15); (16676343,15);
(16643065,15); (16609787,15); (16576511,15); (16543236,15); (16509962,15); (16476688,15); (16443416,15); (16410145,15);
(16376875,15); (16343605,15); (16310337,15); (16277070,15); (16243804,15); (16210539,15); (16177275,15); (16144012,15);
(16110750,15); (16077489,15); (16044229,15); (16010970,15); (15977712,15); (15944455,15); (15911199,15); (15877944,15);
(15844690,15); (15811438,15); (15778186,15); (15744935,15); (15711685,15); (15678437,15); (15645189,15); (15611942,15);
(15578697,15); (15545452,15); (15512208,15); (15478966,15); (15445724,15); (15412484,15); (15379244,15); (15346006,15);
(15312768,15); (15279532,15); (15246296,15); (15213062,15); (15179828,15); (15146596,15); (15113365,15); (15080134,15);
(15046905,15); (15013677,15); (14980449,15); (14947223,15); (14913998,15); (14880774,15); (14847551,15); (14814328,15);
(14781107,15); (14747887,15); (14714668,15); (14681450,15); (14648233,15); (14615017,15); (14581802,15); (14548588,15);
(14515375,15); (14482163,15); (14448952,15); (14415742,15); (14382533,15); (14349325,15); (14316118,15); (14282912,15);
(14249708,15); (14216504,15); (14183301,15); (14150099,15); (14116899,15); (14083699,15); (14050500,15); (14017302,15);
(13984106,15); (13950910,15); (13917716,15); (13884522,15); (13851329,15); (13818138,15); (13784947,15); (13751758,15);
(13718569,15); (13685382,15); (13652195,15); (13619010,15); (13585825,15); (13552642,15); (13519460,15); (13486278,15);
(13453098,15); (13419919,15); (13386740,15); (13353563,15); (13320387,15); (13287211,15); (13254037,15); (13220864,15);
(13187692,15); (13154521,15); (13121350,15); (13088181,15); (13055013,15); (13021846,15); (12988680,15); (12955515,15);
(12922351,15); (12889188,15); (12856026,15); (12822865,15); (12789705,15); (12756546,15); (12723388,15); (12690231,15);
(12657075,15); (12623920,15); (12590766,15); (12557613,15); (12524462,15); (12491311,15); (12458161,15); (12425012,15);
(12391864,15); (12358718,15); (12325572,15); (12292427,15); (12259283,15); (12226141,15); (12192999,15); (12159858,15);
(12126719,15); (12093580,15); (12060443,15); (12027306,15); (11994171,15); (11961036,15); (11927902,15); (11894770,15);
(11861638,15); (11828508,15); (11795378,15); (11762250,15); (11729123,15); (11695996,15); (11662871,15); (11629746,15);
(11596623,15); (11563501,15); (11530379,15); (11497259,15); (11464140,15); (11431021,15); (11397904,15); (11364788,15);
(11331673,15); (11298558,15); (11265445,15); (11232333,15); (11199222,15); (11166112,15); (11133003,15); (11099895,15);
(11066787,15); (11033681,15); (11000576,15); (10967472,15); (10934369,15); (10901267,15); (10868166,15); (10835066,15);
(10801967,15); (10768869,15); (10735772,15); (10702676,15); (10669581,15); (10636487,15); (10603394,15); (10570303,15);
(10537212,15); (10504122,15); (10471033,15); (10437945,15); (10404858,15); (10371773,15); (10338688,15); (10305604,15);
(10272521,15); (10239440,15); (10206359,15); (10173279,15); (10140200,15); (10107123,15); (10074046,15); (10040970,15);
(10007896,15); (9974822,15); (9941750,15); (9908678,15); (9875607,15); (9842538,15); (9809469,15); (9776402,15);
(9743335,15); (9710270,15); (9677205,15); (9644142,15); (9611079,15); (9578018,15); (9544957,15); (9511898,15);
(9478840,15); (9445782,15); (9412726,15); (9379670,15); (9346616,15); (9313563,15); (9280510,15); (9247459,15);
(9214409,15); (9181359,15); (9148311,15); (9115264,15); (9082218,15); (9049172,15); (9016128,15); (8983085,15);
(8950043,15); (8917001,15); (8883961,15); (8850922,15); (8817884,15); (8784847,15); (8751811,15); (8718776,15);
(8685741,15); (8652708,15); (8619676,15); (8586645,15); (8553615,15); (8520586,15); (8487558,15); (8454531,15);
(8421505,15); (8388480,15); (8355456,15); (8322433,15); (8289411,15); (8256390,15); (8223370,15); (8190351,15);
(8157333,15); (8124316,15); (8091301,15); (8058286,15); (8025272,15); (7992259,15); (7959247,15); (7926236,15);
(7893226,15); (7860218,15); (7827210,15); (7794203,15); (7761197,15); (7728192,15); (7695189,15); (7662186,15);
(7629184,15); (7596183,15); (7563184,15); (7530185,15); (7497187,15); (7464191,15); (7431195,15); (7398200,15);
(7365207,15); (7332214,15); (7299222,15); (7266232,15); (7233242,15); (7200253,15); (7167266,15); (7134279,15);
(7101294,15); (7068309,15); (7035326,15); (7002343,15); (6969361,15); (6936381,15); (6903401,15); (6870423,15);
(6837445,15); (6804469,15); (6771493,15); (6738519,15); (6705545,15); (6672573,15); (6639602,15); (6606631,15);
(6573662,15); (6540693,15); (6507726,15); (6474760,15); (6441794,15); (6408830,15); (6375866,15); (6342904,15);
(6309943,15); (6276982,15); (6244023,15); (6211065,15); (6178107,15); (6145151,15); (6112196,15); (6079241,15);
(6046288,15); (6013336,15); (5980385,15); (5947434,15); (5914485,15); (5881537,15); (5848590,15); (5815643,15);
(5782698,15); (5749754,15); (5716811,15); (5683869,15); (5650927,15); (5617987,15); (5585048,15); (5552110,15);
(5519173,15); (5486237,15); (5453301,15); (5420367,15); (5387434,15); (5354502,15); (5321571,15); (5288641,15);
(5255712,15); (5222784,15); (5189857,15); (5156931,15); (5124006,15); (5091081,15); (5058158,15); (5025236,15);
(4992315,15); (4959395,15); (4926476,15); (4893558,15); (4860641,15); (4827725,15); (4794810,15); (4761896,15);
(4728983,15); (4696071,15); (4663160,15); (4630250,15); (4597341,15); (4564434,15); (4531527,15); (4498621,15);
(4465716,15); (4432812,15); (4399909,15); (4367007,15); (4334106,15); (4301206,15); (4268307,15); (4235409,15);
(4202513,15); (4169617,15); (4136722,15); (4103828,15); (4070935,15); (4038043,15); (4005152,15); (3972263,15);
(3939374,15); (3906486,15); (3873599,15); (3840713,15); (3807828,15); (3774945,15); (3742062,15); (3709180,15);
(3676299,15); (3643419,15); (3610541,15); (3577663,15); (3544786,15); (3511910,15); (3479036,15); (3446162,15);
(3413289,15); (3380417,15); (3347547,15); (3314677,15); (3281808,15); (3248940,15); (3216074,15); (3183208,15);
(3150343,15); (3117480,15); (3084617,15); (3051755,15); (3018894,15); (2986035,15); (2953176,15); (2920318,15);
(2887462,15); (2854606,15); (2821751,15); (2788898,15); (2756045,15); (2723193,15); (2690343,15); (2657493,15);
(2624644,15); (2591797,15); (2558950,15); (2526104,15); (2493260,15); (2460416,15); (2427574,15); (2394732,15);
(2361891,15); (2329052,15); (2296213,15); (2263376,15); (2230539,15); (2197703,15); (2164869,15); (2132035,15);
(2099203,15); (2066371,15); (2033540,15); (2000711,15); (1967882,15); (1935055,15); (1902228,15); (1869402,15);
(1836578,15); (1803754,15); (1770932,15); (1738110,15); (1705290,15); (1672470,15); (1639651,15); (1606834,15);
(1574017,15); (1541202,15); (1508387,15); (1475574,15); (1442761,15); (1409950,15); (1377139,15); (1344330,15);
(1311521,15); (1278713,15); (1245907,15); (1213101,15); (1180297,15); (1147493,15); (1114691,15); (1081889,15);
(1049089,15); (1016289,15); (983491,15); (950693,15); (917897,15); (885101,15); (852307,15); (819513,15);
(786721,15); (753929,15); (721139,15); (688349,15); (655561,15); (622773,15); (589987,15); (557201,15);
(524417,15); (491633,15); (458851,15); (426069,15); (393289,15); (360509,15); (327731,15); (294953,15);
(262177,15); (229401,15); (196627,15); (163853,15); (131081,15); (98309,15); (65539,15); (32769,15)].
