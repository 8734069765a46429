(** Transcription of entries 32768..49151 of RECIPROCAL, /repo/src/probability/div_lut.rs:19-4116
    (generated by tools/gen_div_lut.py). *)
From Verif Require Import Prelude.

(** entries 32768..34815 *)
Definition RECIPROCAL_16 : list (Z * Z) := [
(2147483649,15); (2147352580,15); (2147221520,15); (2147090468,15); (2146959424,15); (2146828388,15); (2146697360,15); (2146566340,15);
(2146435328,15); (2146304324,15); (2146173328,15); (2146042340,15); (2145911360,15); (2145780388,15); (2145649424,15); (2145518468,15);
(2145387520,15); (2145256580,15); (2145125648,15); (2144994724,15); (2144863808,15); (2144732899,15); (2144601999,15); (2144471107,15);
(2144340223,15); (2144209347,15); (2144078478,15); (2143947618,15); (2143816766,15); (2143685922,15); (2143555085,15); (2143424257,15);
(2143293437,15); (2143162624,15); (2143031820,15); (2142901023,15); (2142770235,15); (2142639454,15); (2142508682,15); (2142377917,15);
(2142247161,15); (2142116412,15); (2141985671,15); (2141854939,15); (2141724214,15); (2141593497,15); (2141462789,15); (2141332088,15);
(2141201395,15); (2141070710,15); (2140940033,15); (2140809364,15); (2140678703,15); (2140548050,15); (2140417405,15); (2140286768,15);
(2140156139,15); (2140025518,15); (2139894905,15); (2139764299,15); (2139633702,15); (2139503113,15); (2139372531,15); (2139241958,15);
(2139111393,15); (2138980835,15); (2138850285,15); (2138719744,15); (2138589210,15); (2138458684,15); (2138328167,15); (2138197657,15);
(2138067155,15); (2137936661,15); (2137806175,15); (2137675697,15); (2137545227,15); (2137414765,15); (2137284311,15); (2137153864,15);
(2137023426,15); (2136892996,15); (2136762573,15); (2136632159,15); (2136501752,15); (2136371354,15); (2136240963,15); (2136110580,15);
(2135980206,15); (2135849839,15); (2135719480,15); (2135589129,15); (2135458786,15); (2135328451,15); (2135198123,15); (2135067804,15);
(2134937493,15); (2134807189,15); (2134676894,15); (2134546606,15); (2134416327,15); (2134286055,15); (2134155791,15); (2134025536,15);
(2133895288,15); (2133765048,15); (2133634816,15); (2133504591,15); (2133374375,15); (2133244167,15); (2133113967,15); (2132983774,15);
(2132853590,15); (2132723413,15); (2132593244,15); (2132463083,15); (2132332931,15); (2132202786,15); (2132072649,15); (2131942520,15);
(2131812398,15); (2131682285,15); (2131552180,15); (2131422082,15); (2131291993,15); (2131161911,15); (2131031837,15); (2130901771,15);
(2130771713,15); (2130641663,15); (2130511621,15); (2130381587,15); (2130251561,15); (2130121542,15); (2129991532,15); (2129861529,15);
(2129731535,15); (2129601548,15); (2129471569,15); (2129341598,15); (2129211635,15); (2129081680,15); (2128951732,15); (2128821793,15);
(2128691862,15); (2128561938,15); (2128432022,15); (2128302114,15); (2128172215,15); (2128042323,15); (2127912438,15); (2127782562,15);
(2127652694,15); (2127522833,15); (2127392981,15); (2127263136,15); (2127133299,15); (2127003470,15); (2126873649,15); (2126743836,15);
(2126614031,15); (2126484234,15); (2126354444,15); (2126224662,15); (2126094889,15); (2125965123,15); (2125835365,15); (2125705615,15);
(2125575873,15); (2125446138,15); (2125316412,15); (2125186693,15); (2125056983,15); (2124927280,15); (2124797585,15); (2124667898,15);
(2124538219,15); (2124408547,15); (2124278884,15); (2124149228,15); (2124019580,15); (2123889941,15); (2123760309,15); (2123630685,15);
(2123501068,15); (2123371460,15); (2123241859,15); (2123112267,15); (2122982682,15); (2122853105,15); (2122723536,15); (2122593975,15);
(2122464422,15); (2122334876,15); (2122205338,15); (2122075809,15); (2121946287,15); (2121816773,15); (2121687267,15); (2121557768,15);
(2121428278,15); (2121298795,15); (2121169321,15); (2121039854,15); (2120910395,15); (2120780943,15); (2120651500,15); (2120522065,15);
(2120392637,15); (2120263217,15); (2120133805,15); (2120004401,15); (2119875005,15); (2119745616,15); (2119616236,15); (2119486863,15);
(2119357498,15); (2119228141,15); (2119098792,15); (2118969451,15); (2118840117,15); (2118710792,15); (2118581474,15); (2118452164,15);
(2118322862,15); (2118193568,15); (2118064281,15); (2117935002,15); (2117805732,15); (2117676469,15); (2117547214,15); (2117417966,15);
(2117288727,15); (2117159495,15); (2117030272,15); (2116901056,15); (2116771847,15); (2116642647,15); (2116513455,15); (2116384270,15);
(2116255093,15); (2116125924,15); (2115996763,15); (2115867610,15); (2115738464,15); (2115609327,15); (2115480197,15); (2115351075,15);
(2115221961,15); (2115092854,15); (2114963756,15); (2114834665,15); (2114705582,15); (2114576507,15); (2114447440,15); (2114318380,15);
(2114189328,15); (2114060285,15); (2113931249,15); (2113802220,15); (2113673200,15); (2113544187,15); (2113415183,15); (2113286186,15);
(2113157196,15); (2113028215,15); (2112899242,15); (2112770276,15); (2112641318,15); (2112512368,15); (2112383425,15); (2112254491,15);
(2112125564,15); (2111996645,15); (2111867734,15); (2111738831,15); (2111609935,15); (2111481048,15); (2111352168,15); (2111223296,15);
(2111094432,15); (2110965575,15); (2110836726,15); (2110707885,15); (2110579052,15); (2110450227,15); (2110321410,15); (2110192600,15);
(2110063798,15); (2109935004,15); (2109806217,15); (2109677439,15); (2109548668,15); (2109419905,15); (2109291150,15); (2109162403,15);
(2109033663,15); (2108904931,15); (2108776207,15); (2108647491,15); (2108518783,15); (2108390082,15); (2108261389,15); (2108132704,15);
(2108004027,15); (2107875357,15); (2107746695,15); (2107618041,15); (2107489395,15); (2107360757,15); (2107232126,15); (2107103503,15);
(2106974888,15); (2106846281,15); (2106717681,15); (2106589089,15); (2106460505,15); (2106331929,15); (2106203361,15); (2106074800,15);
(2105946247,15); (2105817702,15); (2105689165,15); (2105560635,15); (2105432113,15); (2105303599,15); (2105175093,15); (2105046594,15);
(2104918104,15); (2104789621,15); (2104661145,15); (2104532678,15); (2104404218,15); (2104275766,15); (2104147322,15); (2104018886,15);
(2103890457,15); (2103762036,15); (2103633623,15); (2103505218,15); (2103376820,15); (2103248430,15); (2103120048,15); (2102991674,15);
(2102863307,15); (2102734948,15); (2102606597,15); (2102478254,15); (2102349918,15); (2102221590,15); (2102093270,15); (2101964958,15);
(2101836653,15); (2101708356,15); (2101580067,15); (2101451786,15); (2101323512,15); (2101195246,15); (2101066988,15); (2100938738,15);
(2100810495,15); (2100682260,15); (2100554033,15); (2100425814,15); (2100297602,15); (2100169398,15); (2100041202,15); (2099913013,15);
(2099784833,15); (2099656660,15); (2099528494,15); (2099400337,15); (2099272187,15); (2099144045,15); (2099015911,15); (2098887784,15);
(2098759665,15); (2098631554,15); (2098503451,15); (2098375355,15); (2098247267,15); (2098119187,15); (2097991114,15); (2097863050,15);
(2097734993,15); (2097606943,15); (2097478902,15); (2097350868,15); (2097222842,15); (2097094823,15); (2096966813,15); (2096838810,15);
(2096710814,15); (2096582827,15); (2096454847,15); (2096326875,15); (2096198911,15); (2096070954,15); (2095943005,15); (2095815064,15);
(2095687130,15); (2095559204,15); (2095431286,15); (2095303376,15); (2095175473,15); (2095047578,15); (2094919691,15); (2094791812,15);
(2094663940,15); (2094536076,15); (2094408219,15); (2094280371,15); (2094152530,15); (2094024696,15); (2093896871,15); (2093769053,15);
(2093641243,15); (2093513440,15); (2093385645,15); (2093257858,15); (2093130079,15); (2093002307,15); (2092874543,15); (2092746787,15);
(2092619039,15); (2092491298,15); (2092363565,15); (2092235839,15); (2092108121,15); (2091980411,15); (2091852709,15); (2091725014,15);
(2091597327,15); (2091469648,15); (2091341976,15); (2091214312,15); (2091086656,15); (2090959007,15); (2090831367,15); (2090703733,15);
(2090576108,15); (2090448490,15); (2090320880,15); (2090193277,15); (2090065683,15); (2089938096,15); (2089810516,15); (2089682945,15);
(2089555381,15); (2089427824,15); (2089300276,15); (2089172735,15); (2089045201,15); (2088917676,15); (2088790158,15); (2088662647,15);
(2088535145,15); (2088407650,15); (2088280163,15); (2088152683,15); (2088025211,15); (2087897747,15); (2087770290,15); (2087642841,15);
(2087515400,15); (2087387967,15); (2087260541,15); (2087133123,15); (2087005712,15); (2086878309,15); (2086750914,15); (2086623526,15);
(2086496147,15); (2086368774,15); (2086241410,15); (2086114053,15); (2085986704,15); (2085859362,15); (2085732028,15); (2085604702,15);
(2085477383,15); (2085350072,15); (2085222769,15); (2085095474,15); (2084968186,15); (2084840905,15); (2084713633,15); (2084586368,15);
(2084459110,15); (2084331861,15); (2084204619,15); (2084077384,15); (2083950158,15); (2083822938,15); (2083695727,15); (2083568523,15);
(2083441327,15); (2083314139,15); (2083186958,15); (2083059785,15); (2082932619,15); (2082805461,15); (2082678311,15); (2082551168,15);
(2082424033,15); (2082296906,15); (2082169786,15); (2082042674,15); (2081915570,15); (2081788473,15); (2081661384,15); (2081534302,15);
(2081407229,15); (2081280162,15); (2081153104,15); (2081026053,15); (2080899009,15); (2080771974,15); (2080644946,15); (2080517925,15);
(2080390913,15); (2080263907,15); (2080136910,15); (2080009920,15); (2079882938,15); (2079755963,15); (2079628996,15); (2079502037,15);
(2079375085,15); (2079248141,15); (2079121204,15); (2078994275,15); (2078867354,15); (2078740441,15); (2078613535,15); (2078486636,15);
(2078359745,15); (2078232862,15); (2078105987,15); (2077979119,15); (2077852258,15); (2077725406,15); (2077598561,15); (2077471723,15);
(2077344893,15); (2077218071,15); (2077091257,15); (2076964450,15); (2076837650,15); (2076710858,15); (2076584074,15); (2076457298,15);
(2076330529,15); (2076203768,15); (2076077014,15); (2075950268,15); (2075823529,15); (2075696798,15); (2075570075,15); (2075443359,15);
(2075316651,15); (2075189951,15); (2075063258,15); (2074936573,15); (2074809895,15); (2074683225,15); (2074556562,15); (2074429907,15);
(2074303260,15); (2074176621,15); (2074049988,15); (2073923364,15); (2073796747,15); (2073670138,15); (2073543536,15); (2073416942,15);
(2073290355,15); (2073163777,15); (2073037205,15); (2072910642,15); (2072784085,15); (2072657537,15); (2072530996,15); (2072404462,15);
(2072277937,15); (2072151418,15); (2072024908,15); (2071898405,15); (2071771909,15); (2071645422,15); (2071518941,15); (2071392469,15);
(2071266003,15); (2071139546,15); (2071013096,15); (2070886654,15); (2070760219,15); (2070633792,15); (2070507372,15); (2070380960,15);
(2070254555,15); (2070128159,15); (2070001769,15); (2069875387,15); (2069749013,15); (2069622647,15); (2069496288,15); (2069369936,15);
(2069243592,15); (2069117256,15); (2068990927,15); (2068864606,15); (2068738292,15); (2068611986,15); (2068485688,15); (2068359397,15);
(2068233114,15); (2068106838,15); (2067980570,15); (2067854309,15); (2067728056,15); (2067601810,15); (2067475572,15); (2067349342,15);
(2067223119,15); (2067096904,15); (2066970696,15); (2066844496,15); (2066718303,15); (2066592118,15); (2066465941,15); (2066339771,15);
(2066213609,15); (2066087454,15); (2065961307,15); (2065835167,15); (2065709035,15); (2065582910,15); (2065456793,15); (2065330683,15);
(2065204582,15); (2065078487,15); (2064952400,15); (2064826321,15); (2064700249,15); (2064574185,15); (2064448128,15); (2064322079,15);
(2064196038,15); (2064070003,15); (2063943977,15); (2063817958,15); (2063691947,15); (2063565943,15); (2063439946,15); (2063313958,15);
(2063187976,15); (2063062003,15); (2062936036,15); (2062810078,15); (2062684127,15); (2062558183,15); (2062432247,15); (2062306319,15);
(2062180398,15); (2062054484,15); (2061928578,15); (2061802680,15); (2061676789,15); (2061550906,15); (2061425030,15); (2061299162,15);
(2061173301,15); (2061047448,15); (2060921602,15); (2060795764,15); (2060669933,15); (2060544110,15); (2060418295,15); (2060292487,15);
(2060166686,15); (2060040893,15); (2059915108,15); (2059789330,15); (2059663559,15); (2059537796,15); (2059412041,15); (2059286293,15);
(2059160553,15); (2059034820,15); (2058909094,15); (2058783376,15); (2058657666,15); (2058531963,15); (2058406268,15); (2058280580,15);
(2058154900,15); (2058029227,15); (2057903562,15); (2057777904,15); (2057652254,15); (2057526611,15); (2057400976,15); (2057275349,15);
(2057149728,15); (2057024116,15); (2056898510,15); (2056772913,15); (2056647323,15); (2056521740,15); (2056396165,15); (2056270597,15);
(2056145037,15); (2056019484,15); (2055893939,15); (2055768401,15); (2055642871,15); (2055517349,15); (2055391833,15); (2055266326,15);
(2055140826,15); (2055015333,15); (2054889848,15); (2054764370,15); (2054638900,15); (2054513437,15); (2054387982,15); (2054262534,15);
(2054137094,15); (2054011661,15); (2053886236,15); (2053760818,15); (2053635408,15); (2053510005,15); (2053384610,15); (2053259222,15);
(2053133842,15); (2053008469,15); (2052883103,15); (2052757746,15); (2052632395,15); (2052507052,15); (2052381717,15); (2052256389,15);
(2052131068,15); (2052005755,15); (2051880450,15); (2051755152,15); (2051629861,15); (2051504578,15); (2051379302,15); (2051254034,15);
(2051128774,15); (2051003520,15); (2050878275,15); (2050753036,15); (2050627806,15); (2050502582,15); (2050377366,15); (2050252158,15);
(2050126957,15); (2050001764,15); (2049876578,15); (2049751399,15); (2049626228,15); (2049501065,15); (2049375909,15); (2049250760,15);
(2049125619,15); (2049000485,15); (2048875359,15); (2048750240,15); (2048625129,15); (2048500025,15); (2048374928,15); (2048249840,15);
(2048124758,15); (2047999684,15); (2047874617,15); (2047749558,15); (2047624507,15); (2047499462,15); (2047374426,15); (2047249396,15);
(2047124375,15); (2046999360,15); (2046874353,15); (2046749354,15); (2046624362,15); (2046499377,15); (2046374400,15); (2046249430,15);
(2046124468,15); (2045999513,15); (2045874566,15); (2045749626,15); (2045624693,15); (2045499768,15); (2045374851,15); (2045249941,15);
(2045125038,15); (2045000143,15); (2044875255,15); (2044750375,15); (2044625502,15); (2044500636,15); (2044375778,15); (2044250927,15);
(2044126084,15); (2044001249,15); (2043876420,15); (2043751599,15); (2043626786,15); (2043501980,15); (2043377181,15); (2043252390,15);
(2043127607,15); (2043002830,15); (2042878061,15); (2042753300,15); (2042628546,15); (2042503799,15); (2042379060,15); (2042254329,15);
(2042129604,15); (2042004887,15); (2041880178,15); (2041755476,15); (2041630781,15); (2041506094,15); (2041381415,15); (2041256742,15);
(2041132077,15); (2041007420,15); (2040882770,15); (2040758127,15); (2040633492,15); (2040508864,15); (2040384244,15); (2040259631,15);
(2040135025,15); (2040010427,15); (2039885836,15); (2039761253,15); (2039636677,15); (2039512109,15); (2039387548,15); (2039262994,15);
(2039138448,15); (2039013909,15); (2038889378,15); (2038764854,15); (2038640337,15); (2038515828,15); (2038391326,15); (2038266831,15);
(2038142345,15); (2038017865,15); (2037893393,15); (2037768928,15); (2037644471,15); (2037520021,15); (2037395578,15); (2037271143,15);
(2037146715,15); (2037022295,15); (2036897882,15); (2036773476,15); (2036649078,15); (2036524687,15); (2036400304,15); (2036275928,15);
(2036151559,15); (2036027198,15); (2035902844,15); (2035778498,15); (2035654159,15); (2035529827,15); (2035405503,15); (2035281186,15);
(2035156877,15); (2035032575,15); (2034908280,15); (2034783993,15); (2034659713,15); (2034535440,15); (2034411175,15); (2034286917,15);
(2034162667,15); (2034038424,15); (2033914188,15); (2033789960,15); (2033665739,15); (2033541526,15); (2033417320,15); (2033293121,15);
(2033168930,15); (2033044746,15); (2032920569,15); (2032796400,15); (2032672238,15); (2032548084,15); (2032423937,15); (2032299797,15);
(2032175665,15); (2032051540,15); (2031927422,15); (2031803312,15); (2031679209,15); (2031555114,15); (2031431025,15); (2031306945,15);
(2031182871,15); (2031058805,15); (2030934747,15); (2030810696,15); (2030686652,15); (2030562615,15); (2030438586,15); (2030314564,15);
(2030190550,15); (2030066543,15); (2029942543,15); (2029818551,15); (2029694566,15); (2029570588,15); (2029446618,15); (2029322655,15);
(2029198699,15); (2029074751,15); (2028950810,15); (2028826877,15); (2028702951,15); (2028579032,15); (2028455120,15); (2028331216,15);
(2028207320,15); (2028083430,15); (2027959548,15); (2027835674,15); (2027711806,15); (2027587946,15); (2027464094,15); (2027340248,15);
(2027216411,15); (2027092580,15); (2026968757,15); (2026844941,15); (2026721132,15); (2026597331,15); (2026473537,15); (2026349751,15);
(2026225972,15); (2026102200,15); (2025978435,15); (2025854678,15); (2025730928,15); (2025607186,15); (2025483451,15); (2025359723,15);
(2025236003,15); (2025112289,15); (2024988584,15); (2024864885,15); (2024741194,15); (2024617510,15); (2024493834,15); (2024370165,15);
(2024246503,15); (2024122848,15); (2023999201,15); (2023875562,15); (2023751929,15); (2023628304,15); (2023504686,15); (2023381076,15);
(2023257473,15); (2023133877,15); (2023010288,15); (2022886707,15); (2022763133,15); (2022639567,15); (2022516007,15); (2022392456,15);
(2022268911,15); (2022145374,15); (2022021844,15); (2021898321,15); (2021774806,15); (2021651298,15); (2021527797,15); (2021404304,15);
(2021280818,15); (2021157339,15); (2021033868,15); (2020910404,15); (2020786947,15); (2020663498,15); (2020540055,15); (2020416621,15);
(2020293193,15); (2020169773,15); (2020046360,15); (2019922954,15); (2019799556,15); (2019676165,15); (2019552782,15); (2019429405,15);
(2019306036,15); (2019182674,15); (2019059320,15); (2018935973,15); (2018812633,15); (2018689300,15); (2018565975,15); (2018442657,15);
(2018319347,15); (2018196043,15); (2018072747,15); (2017949459,15); (2017826177,15); (2017702903,15); (2017579636,15); (2017456377,15);
(2017333124,15); (2017209879,15); (2017086642,15); (2016963411,15); (2016840188,15); (2016716973,15); (2016593764,15); (2016470563,15);
(2016347369,15); (2016224182,15); (2016101003,15); (2015977831,15); (2015854666,15); (2015731509,15); (2015608359,15); (2015485216,15);
(2015362080,15); (2015238952,15); (2015115831,15); (2014992717,15); (2014869610,15); (2014746511,15); (2014623419,15); (2014500335,15);
(2014377257,15); (2014254187,15); (2014131124,15); (2014008069,15); (2013885021,15); (2013761980,15); (2013638946,15); (2013515920,15);
(2013392900,15); (2013269889,15); (2013146884,15); (2013023887,15); (2012900897,15); (2012777914,15); (2012654938,15); (2012531970,15);
(2012409009,15); (2012286055,15); (2012163109,15); (2012040170,15); (2011917238,15); (2011794313,15); (2011671396,15); (2011548486,15);
(2011425583,15); (2011302687,15); (2011179799,15); (2011056918,15); (2010934044,15); (2010811178,15); (2010688318,15); (2010565466,15);
(2010442622,15); (2010319784,15); (2010196954,15); (2010074131,15); (2009951315,15); (2009828507,15); (2009705705,15); (2009582912,15);
(2009460125,15); (2009337345,15); (2009214573,15); (2009091808,15); (2008969051,15); (2008846300,15); (2008723557,15); (2008600821,15);
(2008478092,15); (2008355371,15); (2008232657,15); (2008109950,15); (2007987250,15); (2007864558,15); (2007741872,15); (2007619194,15);
(2007496524,15); (2007373860,15); (2007251204,15); (2007128555,15); (2007005913,15); (2006883279,15); (2006760651,15); (2006638031,15);
(2006515418,15); (2006392813,15); (2006270215,15); (2006147624,15); (2006025040,15); (2005902463,15); (2005779894,15); (2005657331,15);
(2005534777,15); (2005412229,15); (2005289688,15); (2005167155,15); (2005044629,15); (2004922110,15); (2004799599,15); (2004677095,15);
(2004554598,15); (2004432108,15); (2004309625,15); (2004187150,15); (2004064682,15); (2003942221,15); (2003819767,15); (2003697320,15);
(2003574881,15); (2003452449,15); (2003330024,15); (2003207607,15); (2003085196,15); (2002962793,15); (2002840397,15); (2002718008,15);
(2002595627,15); (2002473253,15); (2002350886,15); (2002228526,15); (2002106173,15); (2001983828,15); (2001861489,15); (2001739158,15);
(2001616835,15); (2001494518,15); (2001372209,15); (2001249907,15); (2001127612,15); (2001005324,15); (2000883043,15); (2000760770,15);
(2000638504,15); (2000516245,15); (2000393993,15); (2000271749,15); (2000149512,15); (2000027282,15); (1999905059,15); (1999782843,15);
(1999660635,15); (1999538433,15); (1999416239,15); (1999294052,15); (1999171873,15); (1999049700,15); (1998927535,15); (1998805377,15);
(1998683226,15); (1998561082,15); (1998438946,15); (1998316817,15); (1998194695,15); (1998072580,15); (1997950472,15); (1997828371,15);
(1997706278,15); (1997584192,15); (1997462113,15); (1997340041,15); (1997217977,15); (1997095919,15); (1996973869,15); (1996851826,15);
(1996729791,15); (1996607762,15); (1996485741,15); (1996363726,15); (1996241719,15); (1996119719,15); (1995997727,15); (1995875741,15);
(1995753763,15); (1995631792,15); (1995509828,15); (1995387871,15); (1995265921,15); (1995143979,15); (1995022044,15); (1994900116,15);
(1994778195,15); (1994656281,15); (1994534375,15); (1994412475,15); (1994290583,15); (1994168698,15); (1994046820,15); (1993924950,15);
(1993803086,15); (1993681230,15); (1993559381,15); (1993437539,15); (1993315704,15); (1993193876,15); (1993072056,15); (1992950243,15);
(1992828436,15); (1992706637,15); (1992584846,15); (1992463061,15); (1992341284,15); (1992219513,15); (1992097750,15); (1991975994,15);
(1991854245,15); (1991732504,15); (1991610769,15); (1991489042,15); (1991367322,15); (1991245609,15); (1991123903,15); (1991002204,15);
(1990880513,15); (1990758828,15); (1990637151,15); (1990515481,15); (1990393818,15); (1990272162,15); (1990150514,15); (1990028872,15);
(1989907238,15); (1989785611,15); (1989663991,15); (1989542378,15); (1989420772,15); (1989299174,15); (1989177582,15); (1989055998,15);
(1988934421,15); (1988812851,15); (1988691288,15); (1988569732,15); (1988448184,15); (1988326642,15); (1988205108,15); (1988083581,15);
(1987962061,15); (1987840548,15); (1987719043,15); (1987597544,15); (1987476053,15); (1987354568,15); (1987233091,15); (1987111621,15);
(1986990158,15); (1986868703,15); (1986747254,15); (1986625813,15); (1986504378,15); (1986382951,15); (1986261531,15); (1986140118,15);
(1986018713,15); (1985897314,15); (1985775922,15); (1985654538,15); (1985533161,15); (1985411791,15); (1985290428,15); (1985169072,15);
(1985047723,15); (1984926381,15); (1984805047,15); (1984683720,15); (1984562399,15); (1984441086,15); (1984319780,15); (1984198481,15);
(1984077190,15); (1983955905,15); (1983834627,15); (1983713357,15); (1983592094,15); (1983470838,15); (1983349589,15); (1983228347,15);
(1983107112,15); (1982985884,15); (1982864664,15); (1982743450,15); (1982622244,15); (1982501045,15); (1982379853,15); (1982258668,15);
(1982137490,15); (1982016319,15); (1981895155,15); (1981773999,15); (1981652849,15); (1981531707,15); (1981410572,15); (1981289444,15);
(1981168323,15); (1981047209,15); (1980926102,15); (1980805002,15); (1980683910,15); (1980562824,15); (1980441746,15); (1980320674,15);
(1980199610,15); (1980078553,15); (1979957503,15); (1979836460,15); (1979715425,15); (1979594396,15); (1979473374,15); (1979352360,15);
(1979231352,15); (1979110352,15); (1978989359,15); (1978868373,15); (1978747394,15); (1978626422,15); (1978505457,15); (1978384499,15);
(1978263549,15); (1978142605,15); (1978021669,15); (1977900739,15); (1977779817,15); (1977658902,15); (1977537994,15); (1977417093,15);
(1977296199,15); (1977175312,15); (1977054432,15); (1976933560,15); (1976812694,15); (1976691835,15); (1976570984,15); (1976450140,15);
(1976329302,15); (1976208472,15); (1976087649,15); (1975966833,15); (1975846024,15); (1975725222,15); (1975604428,15); (1975483640,15);
(1975362859,15); (1975242086,15); (1975121319,15); (1975000560,15); (1974879808,15); (1974759062,15); (1974638324,15); (1974517593,15);
(1974396869,15); (1974276152,15); (1974155442,15); (1974034739,15); (1973914044,15); (1973793355,15); (1973672673,15); (1973551999,15);
(1973431331,15); (1973310671,15); (1973190018,15); (1973069371,15); (1972948732,15); (1972828100,15); (1972707475,15); (1972586857,15);
(1972466246,15); (1972345642,15); (1972225045,15); (1972104455,15); (1971983873,15); (1971863297,15); (1971742728,15); (1971622167,15);
(1971501612,15); (1971381065,15); (1971260524,15); (1971139991,15); (1971019465,15); (1970898946,15); (1970778433,15); (1970657928,15);
(1970537430,15); (1970416939,15); (1970296455,15); (1970175978,15); (1970055509,15); (1969935046,15); (1969814590,15); (1969694141,15);
(1969573700,15); (1969453265,15); (1969332837,15); (1969212417,15); (1969092003,15); (1968971597,15); (1968851198,15); (1968730805,15);
(1968610420,15); (1968490042,15); (1968369670,15); (1968249306,15); (1968128949,15); (1968008599,15); (1967888256,15); (1967767920,15);
(1967647591,15); (1967527269,15); (1967406954,15); (1967286646,15); (1967166345,15); (1967046052,15); (1966925765,15); (1966805485,15);
(1966685212,15); (1966564947,15); (1966444688,15); (1966324436,15); (1966204192,15); (1966083954,15); (1965963724,15); (1965843500,15);
(1965723284,15); (1965603074,15); (1965482872,15); (1965362676,15); (1965242488,15); (1965122307,15); (1965002132,15); (1964881965,15);
(1964761805,15); (1964641651,15); (1964521505,15); (1964401366,15); (1964281234,15); (1964161109,15); (1964040990,15); (1963920879,15);
(1963800775,15); (1963680678,15); (1963560588,15); (1963440505,15); (1963320429,15); (1963200360,15); (1963080298,15); (1962960243,15);
(1962840195,15); (1962720154,15); (1962600120,15); (1962480093,15); (1962360073,15); (1962240060,15); (1962120054,15); (1962000055,15);
(1961880063,15); (1961760078,15); (1961640100,15); (1961520129,15); (1961400165,15); (1961280208,15); (1961160258,15); (1961040316,15);
(1960920380,15); (1960800451,15); (1960680529,15); (1960560614,15); (1960440706,15); (1960320805,15); (1960200911,15); (1960081024,15);
(1959961145,15); (1959841272,15); (1959721406,15); (1959601547,15); (1959481695,15); (1959361850,15); (1959242012,15); (1959122181,15);
(1959002357,15); (1958882540,15); (1958762730,15); (1958642927,15); (1958523131,15); (1958403342,15); (1958283560,15); (1958163785,15);
(1958044017,15); (1957924256,15); (1957804502,15); (1957684755,15); (1957565015,15); (1957445282,15); (1957325556,15); (1957205837,15);
(1957086125,15); (1956966420,15); (1956846722,15); (1956727030,15); (1956607346,15); (1956487669,15); (1956367999,15); (1956248335,15);
(1956128679,15); (1956009030,15); (1955889388,15); (1955769752,15); (1955650124,15); (1955530502,15); (1955410888,15); (1955291281,15);
(1955171680,15); (1955052087,15); (1954932500,15); (1954812920,15); (1954693348,15); (1954573782,15); (1954454224,15); (1954334672,15);
(1954215127,15); (1954095589,15); (1953976059,15); (1953856535,15); (1953737018,15); (1953617508,15); (1953498005,15); (1953378509,15);
(1953259020,15); (1953139538,15); (1953020063,15); (1952900595,15); (1952781134,15); (1952661680,15); (1952542232,15); (1952422792,15);
(1952303359,15); (1952183933,15); (1952064513,15); (1951945101,15); (1951825695,15); (1951706297,15); (1951586905,15); (1951467521,15);
(1951348143,15); (1951228772,15); (1951109408,15); (1950990052,15); (1950870702,15); (1950751359,15); (1950632023,15); (1950512694,15);
(1950393372,15); (1950274057,15); (1950154749,15); (1950035447,15); (1949916153,15); (1949796866,15); (1949677586,15); (1949558312,15);
(1949439046,15); (1949319786,15); (1949200534,15); (1949081288,15); (1948962049,15); (1948842817,15); (1948723593,15); (1948604375,15);
(1948485164,15); (1948365960,15); (1948246763,15); (1948127573,15); (1948008389,15); (1947889213,15); (1947770044,15); (1947650881,15);
(1947531726,15); (1947412577,15); (1947293436,15); (1947174301,15); (1947055173,15); (1946936053,15); (1946816939,15); (1946697832,15);
(1946578732,15); (1946459639,15); (1946340553,15); (1946221474,15); (1946102401,15); (1945983336,15); (1945864277,15); (1945745226,15);
(1945626181,15); (1945507144,15); (1945388113,15); (1945269089,15); (1945150072,15); (1945031062,15); (1944912059,15); (1944793063,15);
(1944674074,15); (1944555092,15); (1944436116,15); (1944317148,15); (1944198186,15); (1944079232,15); (1943960284,15); (1943841343,15);
(1943722409,15); (1943603482,15); (1943484562,15); (1943365649,15); (1943246743,15); (1943127844,15); (1943008951,15); (1942890066,15);
(1942771187,15); (1942652316,15); (1942533451,15); (1942414593,15); (1942295742,15); (1942176898,15); (1942058061,15); (1941939231,15);
(1941820407,15); (1941701591,15); (1941582782,15); (1941463979,15); (1941345183,15); (1941226394,15); (1941107613,15); (1940988838,15);
(1940870070,15); (1940751308,15); (1940632554,15); (1940513807,15); (1940395066,15); (1940276333,15); (1940157606,15); (1940038886,15);
(1939920173,15); (1939801467,15); (1939682768,15); (1939564076,15); (1939445391,15); (1939326712,15); (1939208041,15); (1939089376,15);
(1938970718,15); (1938852067,15); (1938733423,15); (1938614786,15); (1938496156,15); (1938377533,15); (1938258916,15); (1938140307,15);
(1938021704,15); (1937903108,15); (1937784520,15); (1937665938,15); (1937547362,15); (1937428794,15); (1937310233,15); (1937191678,15);
(1937073131,15); (1936954590,15); (1936836056,15); (1936717529,15); (1936599009,15); (1936480496,15); (1936361990,15); (1936243490,15);
(1936124998,15); (1936006512,15); (1935888033,15); (1935769562,15); (1935651096,15); (1935532638,15); (1935414187,15); (1935295743,15);
(1935177305,15); (1935058874,15); (1934940451,15); (1934822034,15); (1934703624,15); (1934585220,15); (1934466824,15); (1934348435,15);
(1934230052,15); (1934111676,15); (1933993307,15); (1933874945,15); (1933756590,15); (1933638242,15); (1933519900,15); (1933401566,15);
(1933283238,15); (1933164917,15); (1933046603,15); (1932928296,15); (1932809996,15); (1932691703,15); (1932573416,15); (1932455137,15);
(1932336864,15); (1932218598,15); (1932100339,15); (1931982086,15); (1931863841,15); (1931745603,15); (1931627371,15); (1931509146,15);
(1931390928,15); (1931272717,15); (1931154513,15); (1931036315,15); (1930918125,15); (1930799941,15); (1930681764,15); (1930563594,15);
(1930445431,15); (1930327275,15); (1930209125,15); (1930090983,15); (1929972847,15); (1929854718,15); (1929736596,15); (1929618480,15);
(1929500372,15); (1929382271,15); (1929264176,15); (1929146088,15); (1929028007,15); (1928909933,15); (1928791865,15); (1928673805,15);
(1928555751,15); (1928437704,15); (1928319664,15); (1928201631,15); (1928083605,15); (1927965585,15); (1927847573,15); (1927729567,15);
(1927611568,15); (1927493576,15); (1927375590,15); (1927257612,15); (1927139640,15); (1927021675,15); (1926903717,15); (1926785766,15);
(1926667822,15); (1926549884,15); (1926431954,15); (1926314030,15); (1926196113,15); (1926078202,15); (1925960299,15); (1925842403,15);
(1925724513,15); (1925606630,15); (1925488754,15); (1925370885,15); (1925253022,15); (1925135166,15); (1925017318,15); (1924899476,15);
(1924781641,15); (1924663812,15); (1924545991,15); (1924428176,15); (1924310368,15); (1924192567,15); (1924074773,15); (1923956985,15);
(1923839205,15); (1923721431,15); (1923603664,15); (1923485904,15); (1923368150,15); (1923250404,15); (1923132664,15); (1923014931,15);
(1922897205,15); (1922779486,15); (1922661773,15); (1922544067,15); (1922426369,15); (1922308676,15); (1922190991,15); (1922073313,15);
(1921955641,15); (1921837976,15); (1921720318,15); (1921602667,15); (1921485022,15); (1921367385,15); (1921249754,15); (1921132130,15);
(1921014513,15); (1920896902,15); (1920779299,15); (1920661702,15); (1920544112,15); (1920426528,15); (1920308952,15); (1920191382,15);
(1920073819,15); (1919956263,15); (1919838714,15); (1919721172,15); (1919603636,15); (1919486107,15); (1919368585,15); (1919251070,15);
(1919133561,15); (1919016059,15); (1918898564,15); (1918781076,15); (1918663595,15); (1918546120,15); (1918428653,15); (1918311192,15);
(1918193737,15); (1918076290,15); (1917958849,15); (1917841415,15); (1917723988,15); (1917606568,15); (1917489155,15); (1917371748,15);
(1917254348,15); (1917136955,15); (1917019568,15); (1916902189,15); (1916784816,15); (1916667450,15); (1916550091,15); (1916432738,15);
(1916315393,15); (1916198054,15); (1916080721,15); (1915963396,15); (1915846078,15); (1915728766,15); (1915611461,15); (1915494162,15);
(1915376871,15); (1915259586,15); (1915142308,15); (1915025037,15); (1914907773,15); (1914790515,15); (1914673264,15); (1914556020,15);
(1914438783,15); (1914321552,15); (1914204328,15); (1914087111,15); (1913969901,15); (1913852697,15); (1913735501,15); (1913618311,15);
(1913501127,15); (1913383951,15); (1913266781,15); (1913149618,15); (1913032462,15); (1912915313,15); (1912798170,15); (1912681034,15);
(1912563905,15); (1912446782,15); (1912329667,15); (1912212558,15); (1912095456,15); (1911978360,15); (1911861272,15); (1911744190,15);
(1911627115,15); (1911510047,15); (1911392985,15); (1911275930,15); (1911158882,15); (1911041841,15); (1910924806,15); (1910807778,15);
(1910690757,15); (1910573743,15); (1910456735,15); (1910339734,15); (1910222740,15); (1910105753,15); (1909988772,15); (1909871798,15);
(1909754831,15); (1909637871,15); (1909520917,15); (1909403970,15); (1909287030,15); (1909170097,15); (1909053170,15); (1908936250,15);
(1908819337,15); (1908702431,15); (1908585531,15); (1908468638,15); (1908351752,15); (1908234872,15); (1908118000,15); (1908001134,15);
(1907884274,15); (1907767422,15); (1907650576,15); (1907533737,15); (1907416904,15); (1907300079,15); (1907183260,15); (1907066448,15);
(1906949642,15); (1906832844,15); (1906716052,15); (1906599266,15); (1906482488,15); (1906365716,15); (1906248951,15); (1906132193,15);
(1906015441,15); (1905898696,15); (1905781958,15); (1905665227,15); (1905548502,15); (1905431784,15); (1905315073,15); (1905198368,15);
(1905081670,15); (1904964979,15); (1904848295,15); (1904731617,15); (1904614946,15); (1904498282,15); (1904381624,15); (1904264974,15);
(1904148330,15); (1904031692,15); (1903915062,15); (1903798438,15); (1903681820,15); (1903565210,15); (1903448606,15); (1903332009,15);
(1903215419,15); (1903098835,15); (1902982258,15); (1902865688,15); (1902749124,15); (1902632568,15); (1902516017,15); (1902399474,15);
(1902282937,15); (1902166407,15); (1902049884,15); (1901933367,15); (1901816858,15); (1901700354,15); (1901583858,15); (1901467368,15);
(1901350885,15); (1901234409,15); (1901117939,15); (1901001476,15); (1900885020,15); (1900768570,15); (1900652128,15); (1900535691,15);
(1900419262,15); (1900302839,15); (1900186423,15); (1900070014,15); (1899953611,15); (1899837215,15); (1899720826,15); (1899604443,15);
(1899488067,15); (1899371698,15); (1899255336,15); (1899138980,15); (1899022631,15); (1898906288,15); (1898789953,15); (1898673623,15);
(1898557301,15); (1898440985,15); (1898324676,15); (1898208374,15); (1898092078,15); (1897975790,15); (1897859507,15); (1897743232,15);
(1897626963,15); (1897510701,15); (1897394445,15); (1897278196,15); (1897161954,15); (1897045719,15); (1896929490,15); (1896813268,15);
(1896697052,15); (1896580844,15); (1896464642,15); (1896348446,15); (1896232257,15); (1896116075,15); (1895999900,15); (1895883731,15);
(1895767569,15); (1895651414,15); (1895535265,15); (1895419123,15); (1895302988,15); (1895186859,15); (1895070737,15); (1894954622,15)].

(** entries 34816..36863 *)
Definition RECIPROCAL_17 : list (Z * Z) := [
(1894838513,15); (1894722411,15); (1894606316,15); (1894490228,15); (1894374146,15); (1894258070,15); (1894142002,15); (1894025940,15);
(1893909884,15); (1893793836,15); (1893677794,15); (1893561759,15); (1893445730,15); (1893329708,15); (1893213693,15); (1893097684,15);
(1892981682,15); (1892865687,15); (1892749698,15); (1892633716,15); (1892517741,15); (1892401772,15); (1892285810,15); (1892169854,15);
(1892053906,15); (1891937964,15); (1891822028,15); (1891706100,15); (1891590177,15); (1891474262,15); (1891358353,15); (1891242451,15);
(1891126556,15); (1891010667,15); (1890894785,15); (1890778909,15); (1890663040,15); (1890547178,15); (1890431322,15); (1890315473,15);
(1890199631,15); (1890083795,15); (1889967966,15); (1889852144,15); (1889736328,15); (1889620519,15); (1889504717,15); (1889388921,15);
(1889273132,15); (1889157349,15); (1889041573,15); (1888925804,15); (1888810042,15); (1888694286,15); (1888578536,15); (1888462794,15);
(1888347058,15); (1888231328,15); (1888115606,15); (1887999890,15); (1887884180,15); (1887768477,15); (1887652781,15); (1887537091,15);
(1887421409,15); (1887305732,15); (1887190063,15); (1887074400,15); (1886958743,15); (1886843093,15); (1886727450,15); (1886611814,15);
(1886496184,15); (1886380561,15); (1886264944,15); (1886149334,15); (1886033731,15); (1885918134,15); (1885802544,15); (1885686960,15);
(1885571383,15); (1885455813,15); (1885340249,15); (1885224692,15); (1885109142,15); (1884993598,15); (1884878061,15); (1884762531,15);
(1884647007,15); (1884531489,15); (1884415979,15); (1884300475,15); (1884184977,15); (1884069487,15); (1883954002,15); (1883838525,15);
(1883723054,15); (1883607589,15); (1883492132,15); (1883376681,15); (1883261236,15); (1883145798,15); (1883030367,15); (1882914942,15);
(1882799524,15); (1882684113,15); (1882568708,15); (1882453310,15); (1882337918,15); (1882222533,15); (1882107155,15); (1881991783,15);
(1881876418,15); (1881761059,15); (1881645707,15); (1881530362,15); (1881415023,15); (1881299691,15); (1881184365,15); (1881069046,15);
(1880953734,15); (1880838428,15); (1880723129,15); (1880607836,15); (1880492550,15); (1880377271,15); (1880261998,15); (1880146732,15);
(1880031473,15); (1879916220,15); (1879800973,15); (1879685733,15); (1879570500,15); (1879455274,15); (1879340054,15); (1879224840,15);
(1879109633,15); (1878994433,15); (1878879240,15); (1878764053,15); (1878648872,15); (1878533698,15); (1878418531,15); (1878303370,15);
(1878188216,15); (1878073069,15); (1877957928,15); (1877842793,15); (1877727666,15); (1877612545,15); (1877497430,15); (1877382322,15);
(1877267221,15); (1877152126,15); (1877037038,15); (1876921956,15); (1876806881,15); (1876691812,15); (1876576750,15); (1876461695,15);
(1876346646,15); (1876231604,15); (1876116569,15); (1876001539,15); (1875886517,15); (1875771501,15); (1875656492,15); (1875541489,15);
(1875426493,15); (1875311503,15); (1875196520,15); (1875081544,15); (1874966574,15); (1874851611,15); (1874736654,15); (1874621704,15);
(1874506760,15); (1874391823,15); (1874276893,15); (1874161969,15); (1874047052,15); (1873932141,15); (1873817237,15); (1873702339,15);
(1873587448,15); (1873472564,15); (1873357686,15); (1873242815,15); (1873127950,15); (1873013092,15); (1872898240,15); (1872783395,15);
(1872668556,15); (1872553724,15); (1872438899,15); (1872324080,15); (1872209268,15); (1872094462,15); (1871979663,15); (1871864870,15);
(1871750084,15); (1871635305,15); (1871520532,15); (1871405766,15); (1871291006,15); (1871176252,15); (1871061506,15); (1870946766,15);
(1870832032,15); (1870717305,15); (1870602584,15); (1870487870,15); (1870373163,15); (1870258462,15); (1870143768,15); (1870029080,15);
(1869914399,15); (1869799724,15); (1869685056,15); (1869570394,15); (1869455739,15); (1869341091,15); (1869226449,15); (1869111813,15);
(1868997185,15); (1868882562,15); (1868767946,15); (1868653337,15); (1868538735,15); (1868424138,15); (1868309549,15); (1868194966,15);
(1868080389,15); (1867965819,15); (1867851256,15); (1867736699,15); (1867622148,15); (1867507604,15); (1867393067,15); (1867278536,15);
(1867164012,15); (1867049494,15); (1866934983,15); (1866820479,15); (1866705980,15); (1866591489,15); (1866477004,15); (1866362525,15);
(1866248053,15); (1866133588,15); (1866019129,15); (1865904676,15); (1865790231,15); (1865675791,15); (1865561358,15); (1865446932,15);
(1865332512,15); (1865218099,15); (1865103692,15); (1864989292,15); (1864874898,15); (1864760511,15); (1864646131,15); (1864531756,15);
(1864417389,15); (1864303028,15); (1864188673,15); (1864074325,15); (1863959984,15); (1863845649,15); (1863731320,15); (1863616998,15);
(1863502683,15); (1863388374,15); (1863274071,15); (1863159775,15); (1863045486,15); (1862931203,15); (1862816927,15); (1862702657,15);
(1862588394,15); (1862474137,15); (1862359886,15); (1862245643,15); (1862131405,15); (1862017175,15); (1861902950,15); (1861788733,15);
(1861674521,15); (1861560316,15); (1861446118,15); (1861331926,15); (1861217741,15); (1861103562,15); (1860989390,15); (1860875225,15);
(1860761065,15); (1860646913,15); (1860532766,15); (1860418627,15); (1860304493,15); (1860190367,15); (1860076246,15); (1859962133,15);
(1859848025,15); (1859733925,15); (1859619831,15); (1859505743,15); (1859391662,15); (1859277587,15); (1859163519,15); (1859049457,15);
(1858935402,15); (1858821353,15); (1858707311,15); (1858593275,15); (1858479245,15); (1858365223,15); (1858251206,15); (1858137197,15);
(1858023193,15); (1857909196,15); (1857795206,15); (1857681222,15); (1857567245,15); (1857453274,15); (1857339310,15); (1857225352,15);
(1857111400,15); (1856997455,15); (1856883517,15); (1856769585,15); (1856655659,15); (1856541740,15); (1856427828,15); (1856313922,15);
(1856200022,15); (1856086129,15); (1855972242,15); (1855858362,15); (1855744489,15); (1855630622,15); (1855516761,15); (1855402907,15);
(1855289059,15); (1855175218,15); (1855061383,15); (1854947554,15); (1854833733,15); (1854719917,15); (1854606108,15); (1854492306,15);
(1854378510,15); (1854264721,15); (1854150938,15); (1854037161,15); (1853923391,15); (1853809627,15); (1853695870,15); (1853582120,15);
(1853468375,15); (1853354638,15); (1853240906,15); (1853127182,15); (1853013463,15); (1852899751,15); (1852786046,15); (1852672347,15);
(1852558655,15); (1852444969,15); (1852331289,15); (1852217616,15); (1852103949,15); (1851990289,15); (1851876635,15); (1851762988,15);
(1851649347,15); (1851535713,15); (1851422085,15); (1851308464,15); (1851194849,15); (1851081240,15); (1850967638,15); (1850854043,15);
(1850740454,15); (1850626871,15); (1850513295,15); (1850399725,15); (1850286161,15); (1850172605,15); (1850059054,15); (1849945510,15);
(1849831973,15); (1849718442,15); (1849604917,15); (1849491399,15); (1849377887,15); (1849264382,15); (1849150883,15); (1849037391,15);
(1848923905,15); (1848810425,15); (1848696952,15); (1848583485,15); (1848470025,15); (1848356572,15); (1848243124,15); (1848129683,15);
(1848016249,15); (1847902821,15); (1847789400,15); (1847675984,15); (1847562576,15); (1847449174,15); (1847335778,15); (1847222389,15);
(1847109006,15); (1846995629,15); (1846882259,15); (1846768896,15); (1846655538,15); (1846542188,15); (1846428843,15); (1846315506,15);
(1846202174,15); (1846088849,15); (1845975531,15); (1845862218,15); (1845748913,15); (1845635614,15); (1845522321,15); (1845409034,15);
(1845295754,15); (1845182481,15); (1845069214,15); (1844955953,15); (1844842699,15); (1844729451,15); (1844616209,15); (1844502974,15);
(1844389746,15); (1844276524,15); (1844163308,15); (1844050099,15); (1843936896,15); (1843823699,15); (1843710509,15); (1843597326,15);
(1843484148,15); (1843370978,15); (1843257813,15); (1843144655,15); (1843031504,15); (1842918359,15); (1842805220,15); (1842692088,15);
(1842578962,15); (1842465842,15); (1842352729,15); (1842239623,15); (1842126522,15); (1842013429,15); (1841900341,15); (1841787260,15);
(1841674186,15); (1841561118,15); (1841448056,15); (1841335000,15); (1841221952,15); (1841108909,15); (1840995873,15); (1840882843,15);
(1840769820,15); (1840656803,15); (1840543792,15); (1840430788,15); (1840317791,15); (1840204799,15); (1840091814,15); (1839978836,15);
(1839865864,15); (1839752898,15); (1839639939,15); (1839526986,15); (1839414040,15); (1839301100,15); (1839188166,15); (1839075239,15);
(1838962318,15); (1838849403,15); (1838736495,15); (1838623593,15); (1838510698,15); (1838397809,15); (1838284927,15); (1838172051,15);
(1838059181,15); (1837946318,15); (1837833461,15); (1837720610,15); (1837607766,15); (1837494928,15); (1837382097,15); (1837269272,15);
(1837156453,15); (1837043641,15); (1836930835,15); (1836818036,15); (1836705243,15); (1836592456,15); (1836479676,15); (1836366902,15);
(1836254134,15); (1836141373,15); (1836028618,15); (1835915870,15); (1835803128,15); (1835690393,15); (1835577663,15); (1835464940,15);
(1835352224,15); (1835239514,15); (1835126810,15); (1835014113,15); (1834901422,15); (1834788737,15); (1834676059,15); (1834563387,15);
(1834450722,15); (1834338063,15); (1834225410,15); (1834112764,15); (1834000124,15); (1833887490,15); (1833774863,15); (1833662242,15);
(1833549628,15); (1833437020,15); (1833324418,15); (1833211823,15); (1833099234,15); (1832986651,15); (1832874075,15); (1832761505,15);
(1832648942,15); (1832536385,15); (1832423834,15); (1832311289,15); (1832198751,15); (1832086220,15); (1831973694,15); (1831861176,15);
(1831748663,15); (1831636157,15); (1831523657,15); (1831411163,15); (1831298676,15); (1831186195,15); (1831073721,15); (1830961253,15);
(1830848791,15); (1830736336,15); (1830623887,15); (1830511444,15); (1830399008,15); (1830286578,15); (1830174155,15); (1830061737,15);
(1829949327,15); (1829836922,15); (1829724524,15); (1829612132,15); (1829499747,15); (1829387368,15); (1829274995,15); (1829162629,15);
(1829050269,15); (1828937915,15); (1828825567,15); (1828713227,15); (1828600892,15); (1828488564,15); (1828376242,15); (1828263926,15);
(1828151617,15); (1828039314,15); (1827927017,15); (1827814727,15); (1827702443,15); (1827590166,15); (1827477894,15); (1827365630,15);
(1827253371,15); (1827141119,15); (1827028873,15); (1826916634,15); (1826804400,15); (1826692174,15); (1826579953,15); (1826467739,15);
(1826355531,15); (1826243330,15); (1826131135,15); (1826018946,15); (1825906763,15); (1825794587,15); (1825682418,15); (1825570254,15);
(1825458097,15); (1825345946,15); (1825233802,15); (1825121664,15); (1825009532,15); (1824897406,15); (1824785287,15); (1824673174,15);
(1824561068,15); (1824448968,15); (1824336874,15); (1824224786,15); (1824112705,15); (1824000630,15); (1823888562,15); (1823776500,15);
(1823664444,15); (1823552394,15); (1823440351,15); (1823328314,15); (1823216284,15); (1823104259,15); (1822992241,15); (1822880230,15);
(1822768224,15); (1822656225,15); (1822544233,15); (1822432246,15); (1822320266,15); (1822208293,15); (1822096325,15); (1821984364,15);
(1821872409,15); (1821760461,15); (1821648519,15); (1821536583,15); (1821424654,15); (1821312730,15); (1821200813,15); (1821088903,15);
(1820976999,15); (1820865101,15); (1820753209,15); (1820641324,15); (1820529445,15); (1820417572,15); (1820305706,15); (1820193846,15);
(1820081992,15); (1819970144,15); (1819858303,15); (1819746468,15); (1819634640,15); (1819522817,15); (1819411001,15); (1819299192,15);
(1819187388,15); (1819075591,15); (1818963801,15); (1818852016,15); (1818740238,15); (1818628466,15); (1818516701,15); (1818404941,15);
(1818293188,15); (1818181442,15); (1818069701,15); (1817957967,15); (1817846240,15); (1817734518,15); (1817622803,15); (1817511094,15);
(1817399392,15); (1817287695,15); (1817176005,15); (1817064322,15); (1816952644,15); (1816840973,15); (1816729308,15); (1816617650,15);
(1816505997,15); (1816394352,15); (1816282712,15); (1816171078,15); (1816059451,15); (1815947831,15); (1815836216,15); (1815724608,15);
(1815613006,15); (1815501410,15); (1815389821,15); (1815278238,15); (1815166661,15); (1815055090,15); (1814943526,15); (1814831968,15);
(1814720417,15); (1814608871,15); (1814497332,15); (1814385799,15); (1814274273,15); (1814162752,15); (1814051238,15); (1813939731,15);
(1813828229,15); (1813716734,15); (1813605245,15); (1813493763,15); (1813382286,15); (1813270816,15); (1813159352,15); (1813047895,15);
(1812936444,15); (1812824999,15); (1812713560,15); (1812602127,15); (1812490701,15); (1812379281,15); (1812267868,15); (1812156460,15);
(1812045059,15); (1811933665,15); (1811822276,15); (1811710894,15); (1811599518,15); (1811488148,15); (1811376784,15); (1811265427,15);
(1811154076,15); (1811042732,15); (1810931393,15); (1810820061,15); (1810708735,15); (1810597415,15); (1810486102,15); (1810374795,15);
(1810263494,15); (1810152200,15); (1810040911,15); (1809929629,15); (1809818353,15); (1809707084,15); (1809595820,15); (1809484563,15);
(1809373313,15); (1809262068,15); (1809150830,15); (1809039598,15); (1808928372,15); (1808817152,15); (1808705939,15); (1808594732,15);
(1808483531,15); (1808372337,15); (1808261149,15); (1808149967,15); (1808038791,15); (1807927621,15); (1807816458,15); (1807705301,15);
(1807594150,15); (1807483006,15); (1807371867,15); (1807260735,15); (1807149610,15); (1807038490,15); (1806927377,15); (1806816270,15);
(1806705169,15); (1806594074,15); (1806482986,15); (1806371904,15); (1806260828,15); (1806149759,15); (1806038695,15); (1805927638,15);
(1805816587,15); (1805705543,15); (1805594504,15); (1805483472,15); (1805372446,15); (1805261426,15); (1805150413,15); (1805039406,15);
(1804928405,15); (1804817410,15); (1804706421,15); (1804595439,15); (1804484463,15); (1804373493,15); (1804262530,15); (1804151572,15);
(1804040621,15); (1803929676,15); (1803818738,15); (1803707805,15); (1803596879,15); (1803485959,15); (1803375045,15); (1803264138,15);
(1803153236,15); (1803042341,15); (1802931453,15); (1802820570,15); (1802709694,15); (1802598823,15); (1802487959,15); (1802377102,15);
(1802266250,15); (1802155405,15); (1802044566,15); (1801933733,15); (1801822906,15); (1801712086,15); (1801601272,15); (1801490464,15);
(1801379662,15); (1801268867,15); (1801158077,15); (1801047294,15); (1800936517,15); (1800825747,15); (1800714982,15); (1800604224,15);
(1800493472,15); (1800382726,15); (1800271987,15); (1800161253,15); (1800050526,15); (1799939805,15); (1799829090,15); (1799718382,15);
(1799607679,15); (1799496983,15); (1799386293,15); (1799275610,15); (1799164932,15); (1799054261,15); (1798943596,15); (1798832937,15);
(1798722284,15); (1798611638,15); (1798500998,15); (1798390364,15); (1798279736,15); (1798169114,15); (1798058499,15); (1797947889,15);
(1797837286,15); (1797726690,15); (1797616099,15); (1797505515,15); (1797394936,15); (1797284364,15); (1797173798,15); (1797063239,15);
(1796952685,15); (1796842138,15); (1796731597,15); (1796621062,15); (1796510534,15); (1796400011,15); (1796289495,15); (1796178985,15);
(1796068481,15); (1795957983,15); (1795847492,15); (1795737006,15); (1795626527,15); (1795516054,15); (1795405588,15); (1795295127,15);
(1795184673,15); (1795074224,15); (1794963782,15); (1794853347,15); (1794742917,15); (1794632494,15); (1794522076,15); (1794411665,15);
(1794301261,15); (1794190862,15); (1794080469,15); (1793970083,15); (1793859703,15); (1793749329,15); (1793638961,15); (1793528600,15);
(1793418244,15); (1793307895,15); (1793197552,15); (1793087215,15); (1792976884,15); (1792866560,15); (1792756242,15); (1792645929,15);
(1792535623,15); (1792425324,15); (1792315030,15); (1792204742,15); (1792094461,15); (1791984186,15); (1791873917,15); (1791763654,15);
(1791653398,15); (1791543147,15); (1791432903,15); (1791322665,15); (1791212433,15); (1791102207,15); (1790991988,15); (1790881775,15);
(1790771567,15); (1790661366,15); (1790551171,15); (1790440983,15); (1790330800,15); (1790220624,15); (1790110453,15); (1790000289,15);
(1789890131,15); (1789779980,15); (1789669834,15); (1789559695,15); (1789449561,15); (1789339434,15); (1789229313,15); (1789119199,15);
(1789009090,15); (1788898988,15); (1788788891,15); (1788678801,15); (1788568717,15); (1788458639,15); (1788348568,15); (1788238502,15);
(1788128443,15); (1788018390,15); (1787908343,15); (1787798302,15); (1787688267,15); (1787578239,15); (1787468216,15); (1787358200,15);
(1787248190,15); (1787138186,15); (1787028188,15); (1786918196,15); (1786808211,15); (1786698231,15); (1786588258,15); (1786478291,15);
(1786368330,15); (1786258375,15); (1786148427,15); (1786038484,15); (1785928548,15); (1785818618,15); (1785708694,15); (1785598776,15);
(1785488864,15); (1785378958,15); (1785269059,15); (1785159166,15); (1785049278,15); (1784939397,15); (1784829523,15); (1784719654,15);
(1784609791,15); (1784499935,15); (1784390084,15); (1784280240,15); (1784170402,15); (1784060570,15); (1783950744,15); (1783840925,15);
(1783731111,15); (1783621304,15); (1783511502,15); (1783401707,15); (1783291918,15); (1783182135,15); (1783072359,15); (1782962588,15);
(1782852824,15); (1782743065,15); (1782633313,15); (1782523567,15); (1782413827,15); (1782304093,15); (1782194365,15); (1782084644,15);
(1781974928,15); (1781865219,15); (1781755516,15); (1781645819,15); (1781536128,15); (1781426443,15); (1781316764,15); (1781207092,15);
(1781097425,15); (1780987765,15); (1780878111,15); (1780768463,15); (1780658821,15); (1780549185,15); (1780439555,15); (1780329932,15);
(1780220314,15); (1780110703,15); (1780001098,15); (1779891498,15); (1779781905,15); (1779672319,15); (1779562738,15); (1779453163,15);
(1779343595,15); (1779234032,15); (1779124476,15); (1779014926,15); (1778905381,15); (1778795844,15); (1778686312,15); (1778576786,15);
(1778467266,15); (1778357753,15); (1778248245,15); (1778138744,15); (1778029249,15); (1777919760,15); (1777810277,15); (1777700800,15);
(1777591329,15); (1777481864,15); (1777372406,15); (1777262953,15); (1777153507,15); (1777044067,15); (1776934632,15); (1776825204,15);
(1776715782,15); (1776606367,15); (1776496957,15); (1776387553,15); (1776278156,15); (1776168764,15); (1776059379,15); (1775950000,15);
(1775840626,15); (1775731259,15); (1775621898,15); (1775512544,15); (1775403195,15); (1775293852,15); (1775184516,15); (1775075185,15);
(1774965861,15); (1774856542,15); (1774747230,15); (1774637924,15); (1774528624,15); (1774419330,15); (1774310042,15); (1774200761,15);
(1774091485,15); (1773982215,15); (1773872952,15); (1773763695,15); (1773654443,15); (1773545198,15); (1773435959,15); (1773326726,15);
(1773217499,15); (1773108278,15); (1772999063,15); (1772889855,15); (1772780652,15); (1772671456,15); (1772562265,15); (1772453081,15);
(1772343903,15); (1772234730,15); (1772125564,15); (1772016404,15); (1771907250,15); (1771798102,15); (1771688961,15); (1771579825,15);
(1771470695,15); (1771361572,15); (1771252454,15); (1771143343,15); (1771034237,15); (1770925138,15); (1770816045,15); (1770706958,15);
(1770597877,15); (1770488802,15); (1770379733,15); (1770270670,15); (1770161613,15); (1770052563,15); (1769943518,15); (1769834480,15);
(1769725447,15); (1769616421,15); (1769507401,15); (1769398386,15); (1769289378,15); (1769180376,15); (1769071380,15); (1768962390,15);
(1768853406,15); (1768744428,15); (1768635456,15); (1768526491,15); (1768417531,15); (1768308577,15); (1768199630,15); (1768090688,15);
(1767981753,15); (1767872824,15); (1767763900,15); (1767654983,15); (1767546072,15); (1767437167,15); (1767328268,15); (1767219375,15);
(1767110488,15); (1767001607,15); (1766892732,15); (1766783863,15); (1766675001,15); (1766566144,15); (1766457293,15); (1766348449,15);
(1766239610,15); (1766130778,15); (1766021952,15); (1765913131,15); (1765804317,15); (1765695509,15); (1765586707,15); (1765477910,15);
(1765369120,15); (1765260336,15); (1765151558,15); (1765042786,15); (1764934021,15); (1764825261,15); (1764716507,15); (1764607759,15);
(1764499017,15); (1764390282,15); (1764281552,15); (1764172829,15); (1764064111,15); (1763955400,15); (1763846694,15); (1763737995,15);
(1763629301,15); (1763520614,15); (1763411933,15); (1763303258,15); (1763194588,15); (1763085925,15); (1762977268,15); (1762868617,15);
(1762759972,15); (1762651333,15); (1762542700,15); (1762434073,15); (1762325452,15); (1762216837,15); (1762108229,15); (1761999626,15);
(1761891029,15); (1761782438,15); (1761673854,15); (1761565275,15); (1761456702,15); (1761348136,15); (1761239575,15); (1761131021,15);
(1761022472,15); (1760913930,15); (1760805393,15); (1760696863,15); (1760588338,15); (1760479820,15); (1760371308,15); (1760262801,15);
(1760154301,15); (1760045807,15); (1759937319,15); (1759828836,15); (1759720360,15); (1759611890,15); (1759503426,15); (1759394968,15);
(1759286516,15); (1759178070,15); (1759069629,15); (1758961195,15); (1758852767,15); (1758744345,15); (1758635929,15); (1758527519,15);
(1758419115,15); (1758310718,15); (1758202326,15); (1758093940,15); (1757985560,15); (1757877186,15); (1757768818,15); (1757660456,15);
(1757552100,15); (1757443751,15); (1757335407,15); (1757227069,15); (1757118737,15); (1757010411,15); (1756902092,15); (1756793778,15);
(1756685470,15); (1756577168,15); (1756468873,15); (1756360583,15); (1756252299,15); (1756144022,15); (1756035750,15); (1755927484,15);
(1755819225,15); (1755710971,15); (1755602723,15); (1755494482,15); (1755386246,15); (1755278016,15); (1755169793,15); (1755061575,15);
(1754953363,15); (1754845158,15); (1754736958,15); (1754628764,15); (1754520577,15); (1754412395,15); (1754304219,15); (1754196050,15);
(1754087886,15); (1753979728,15); (1753871577,15); (1753763431,15); (1753655291,15); (1753547158,15); (1753439030,15); (1753330908,15);
(1753222793,15); (1753114683,15); (1753006579,15); (1752898481,15); (1752790390,15); (1752682304,15); (1752574224,15); (1752466150,15);
(1752358083,15); (1752250021,15); (1752141965,15); (1752033915,15); (1751925871,15); (1751817834,15); (1751709802,15); (1751601776,15);
(1751493756,15); (1751385742,15); (1751277734,15); (1751169732,15); (1751061736,15); (1750953746,15); (1750845762,15); (1750737784,15);
(1750629812,15); (1750521846,15); (1750413886,15); (1750305932,15); (1750197984,15); (1750090042,15); (1749982106,15); (1749874176,15);
(1749766252,15); (1749658333,15); (1749550421,15); (1749442515,15); (1749334615,15); (1749226720,15); (1749118832,15); (1749010950,15);
(1748903073,15); (1748795203,15); (1748687338,15); (1748579480,15); (1748471628,15); (1748363781,15); (1748255940,15); (1748148106,15);
(1748040277,15); (1747932455,15); (1747824638,15); (1747716827,15); (1747609023,15); (1747501224,15); (1747393431,15); (1747285644,15);
(1747177863,15); (1747070088,15); (1746962319,15); (1746854557,15); (1746746800,15); (1746639048,15); (1746531303,15); (1746423564,15);
(1746315831,15); (1746208104,15); (1746100383,15); (1745992667,15); (1745884958,15); (1745777255,15); (1745669557,15); (1745561866,15);
(1745454180,15); (1745346501,15); (1745238827,15); (1745131160,15); (1745023498,15); (1744915842,15); (1744808193,15); (1744700549,15);
(1744592911,15); (1744485279,15); (1744377653,15); (1744270033,15); (1744162419,15); (1744054811,15); (1743947209,15); (1743839613,15);
(1743732023,15); (1743624438,15); (1743516860,15); (1743409288,15); (1743301721,15); (1743194161,15); (1743086606,15); (1742979058,15);
(1742871515,15); (1742763978,15); (1742656447,15); (1742548923,15); (1742441404,15); (1742333891,15); (1742226384,15); (1742118883,15);
(1742011388,15); (1741903899,15); (1741796415,15); (1741688938,15); (1741581467,15); (1741474001,15); (1741366542,15); (1741259088,15);
(1741151641,15); (1741044199,15); (1740936763,15); (1740829334,15); (1740721910,15); (1740614492,15); (1740507080,15); (1740399674,15);
(1740292274,15); (1740184880,15); (1740077492,15); (1739970109,15); (1739862733,15); (1739755362,15); (1739647998,15); (1739540639,15);
(1739433287,15); (1739325940,15); (1739218599,15); (1739111264,15); (1739003935,15); (1738896612,15); (1738789295,15); (1738681984,15);
(1738574679,15); (1738467380,15); (1738360086,15); (1738252799,15); (1738145517,15); (1738038242,15); (1737930972,15); (1737823708,15);
(1737716451,15); (1737609199,15); (1737501953,15); (1737394713,15); (1737287479,15); (1737180250,15); (1737073028,15); (1736965812,15);
(1736858601,15); (1736751397,15); (1736644198,15); (1736537005,15); (1736429819,15); (1736322638,15); (1736215463,15); (1736108294,15);
(1736001131,15); (1735893973,15); (1735786822,15); (1735679677,15); (1735572537,15); (1735465404,15); (1735358276,15); (1735251154,15);
(1735144038,15); (1735036928,15); (1734929824,15); (1734822726,15); (1734715634,15); (1734608548,15); (1734501467,15); (1734394393,15);
(1734287324,15); (1734180262,15); (1734073205,15); (1733966154,15); (1733859109,15); (1733752070,15); (1733645037,15); (1733538010,15);
(1733430988,15); (1733323973,15); (1733216963,15); (1733109960,15); (1733002962,15); (1732895970,15); (1732788984,15); (1732682004,15);
(1732575030,15); (1732468062,15); (1732361100,15); (1732254143,15); (1732147193,15); (1732040248,15); (1731933309,15); (1731826376,15);
(1731719449,15); (1731612528,15); (1731505613,15); (1731398704,15); (1731291801,15); (1731184903,15); (1731078011,15); (1730971126,15);
(1730864246,15); (1730757372,15); (1730650504,15); (1730543642,15); (1730436786,15); (1730329935,15); (1730223091,15); (1730116252,15);
(1730009419,15); (1729902593,15); (1729795772,15); (1729688957,15); (1729582147,15); (1729475344,15); (1729368547,15); (1729261755,15);
(1729154970,15); (1729048190,15); (1728941416,15); (1728834648,15); (1728727886,15); (1728621130,15); (1728514379,15); (1728407635,15);
(1728300896,15); (1728194164,15); (1728087437,15); (1727980716,15); (1727874001,15); (1727767292,15); (1727660588,15); (1727553891,15);
(1727447199,15); (1727340514,15); (1727233834,15); (1727127160,15); (1727020492,15); (1726913830,15); (1726807173,15); (1726700523,15);
(1726593878,15); (1726487240,15); (1726380607,15); (1726273980,15); (1726167359,15); (1726060743,15); (1725954134,15); (1725847531,15);
(1725740933,15); (1725634341,15); (1725527755,15); (1725421175,15); (1725314601,15); (1725208033,15); (1725101470,15); (1724994914,15);
(1724888363,15); (1724781818,15); (1724675279,15); (1724568746,15); (1724462219,15); (1724355698,15); (1724249182,15); (1724142672,15);
(1724036169,15); (1723929671,15); (1723823179,15); (1723716692,15); (1723610212,15); (1723503737,15); (1723397269,15); (1723290806,15);
(1723184349,15); (1723077898,15); (1722971453,15); (1722865013,15); (1722758580,15); (1722652152,15); (1722545730,15); (1722439314,15);
(1722332904,15); (1722226500,15); (1722120102,15); (1722013709,15); (1721907322,15); (1721800941,15); (1721694566,15); (1721588197,15);
(1721481834,15); (1721375477,15); (1721269125,15); (1721162779,15); (1721056439,15); (1720950105,15); (1720843777,15); (1720737455,15);
(1720631138,15); (1720524827,15); (1720418522,15); (1720312223,15); (1720205930,15); (1720099643,15); (1719993361,15); (1719887086,15);
(1719780816,15); (1719674552,15); (1719568294,15); (1719462042,15); (1719355795,15); (1719249555,15); (1719143320,15); (1719037091,15);
(1718930868,15); (1718824650,15); (1718718439,15); (1718612233,15); (1718506034,15); (1718399840,15); (1718293652,15); (1718187469,15);
(1718081293,15); (1717975122,15); (1717868958,15); (1717762799,15); (1717656646,15); (1717550498,15); (1717444357,15); (1717338221,15);
(1717232092,15); (1717125968,15); (1717019850,15); (1716913737,15); (1716807631,15); (1716701530,15); (1716595435,15); (1716489346,15);
(1716383263,15); (1716277186,15); (1716171114,15); (1716065049,15); (1715958989,15); (1715852935,15); (1715746887,15); (1715640844,15);
(1715534808,15); (1715428777,15); (1715322752,15); (1715216733,15); (1715110719,15); (1715004712,15); (1714898710,15); (1714792715,15);
(1714686724,15); (1714580740,15); (1714474762,15); (1714368789,15); (1714262823,15); (1714156862,15); (1714050907,15); (1713944957,15);
(1713839014,15); (1713733076,15); (1713627144,15); (1713521218,15); (1713415298,15); (1713309383,15); (1713203475,15); (1713097572,15);
(1712991675,15); (1712885784,15); (1712779898,15); (1712674019,15); (1712568145,15); (1712462277,15); (1712356415,15); (1712250559,15);
(1712144708,15); (1712038863,15); (1711933024,15); (1711827191,15); (1711721364,15); (1711615542,15); (1711509727,15); (1711403917,15);
(1711298113,15); (1711192314,15); (1711086522,15); (1710980735,15); (1710874954,15); (1710769179,15); (1710663410,15); (1710557646,15);
(1710451889,15); (1710346137,15); (1710240391,15); (1710134650,15); (1710028916,15); (1709923187,15); (1709817464,15); (1709711747,15);
(1709606036,15); (1709500330,15); (1709394630,15); (1709288936,15); (1709183248,15); (1709077566,15); (1708971889,15); (1708866218,15);
(1708760553,15); (1708654894,15); (1708549241,15); (1708443593,15); (1708337951,15); (1708232315,15); (1708126685,15); (1708021060,15);
(1707915442,15); (1707809829,15); (1707704222,15); (1707598620,15); (1707493025,15); (1707387435,15); (1707281851,15); (1707176273,15);
(1707070701,15); (1706965134,15); (1706859573,15); (1706754018,15); (1706648469,15); (1706542925,15); (1706437387,15); (1706331856,15);
(1706226329,15); (1706120809,15); (1706015294,15); (1705909786,15); (1705804283,15); (1705698785,15); (1705593294,15); (1705487808,15);
(1705382328,15); (1705276854,15); (1705171385,15); (1705065923,15); (1704960466,15); (1704855015,15); (1704749570,15); (1704644130,15);
(1704538696,15); (1704433268,15); (1704327846,15); (1704222430,15); (1704117019,15); (1704011614,15); (1703906215,15); (1703800822,15);
(1703695434,15); (1703590052,15); (1703484676,15); (1703379306,15); (1703273941,15); (1703168583,15); (1703063230,15); (1702957882,15);
(1702852541,15); (1702747205,15); (1702641875,15); (1702536551,15); (1702431233,15); (1702325920,15); (1702220613,15); (1702115312,15);
(1702010016,15); (1701904727,15); (1701799443,15); (1701694165,15); (1701588893,15); (1701483626,15); (1701378365,15); (1701273110,15);
(1701167861,15); (1701062617,15); (1700957379,15); (1700852147,15); (1700746921,15); (1700641701,15); (1700536486,15); (1700431277,15);
(1700326074,15); (1700220876,15); (1700115684,15); (1700010498,15); (1699905318,15); (1699800143,15); (1699694975,15); (1699589812,15);
(1699484654,15); (1699379503,15); (1699274357,15); (1699169217,15); (1699064083,15); (1698958954,15); (1698853831,15); (1698748714,15);
(1698643603,15); (1698538498,15); (1698433398,15); (1698328304,15); (1698223215,15); (1698118133,15); (1698013056,15); (1697907985,15);
(1697802920,15); (1697697860,15); (1697592806,15); (1697487758,15); (1697382716,15); (1697277679,15); (1697172648,15); (1697067623,15);
(1696962603,15); (1696857590,15); (1696752582,15); (1696647580,15); (1696542583,15); (1696437592,15); (1696332607,15); (1696227628,15);
(1696122655,15); (1696017687,15); (1695912725,15); (1695807768,15); (1695702818,15); (1695597873,15); (1695492934,15); (1695388000,15);
(1695283073,15); (1695178151,15); (1695073234,15); (1694968324,15); (1694863419,15); (1694758520,15); (1694653627,15); (1694548739,15);
(1694443857,15); (1694338981,15); (1694234111,15); (1694129246,15); (1694024387,15); (1693919534,15); (1693814686,15); (1693709845,15);
(1693605008,15); (1693500178,15); (1693395354,15); (1693290535,15); (1693185721,15); (1693080914,15); (1692976112,15); (1692871316,15);
(1692766526,15); (1692661741,15); (1692556962,15); (1692452189,15); (1692347422,15); (1692242660,15); (1692137904,15); (1692033154,15);
(1691928409,15); (1691823670,15); (1691718937,15); (1691614210,15); (1691509488,15); (1691404772,15); (1691300062,15); (1691195357,15);
(1691090659,15); (1690985965,15); (1690881278,15); (1690776596,15); (1690671920,15); (1690567250,15); (1690462585,15); (1690357926,15);
(1690253273,15); (1690148626,15); (1690043984,15); (1689939348,15); (1689834718,15); (1689730093,15); (1689625474,15); (1689520861,15);
(1689416253,15); (1689311651,15); (1689207055,15); (1689102465,15); (1688997880,15); (1688893301,15); (1688788728,15); (1688684160,15);
(1688579598,15); (1688475042,15); (1688370491,15); (1688265947,15); (1688161407,15); (1688056874,15); (1687952346,15); (1687847824,15);
(1687743308,15); (1687638797,15); (1687534292,15); (1687429793,15); (1687325300,15); (1687220812,15); (1687116329,15); (1687011853,15);
(1686907382,15); (1686802917,15); (1686698458,15); (1686594004,15); (1686489556,15); (1686385114,15); (1686280677,15); (1686176246,15);
(1686071821,15); (1685967401,15); (1685862987,15); (1685758579,15); (1685654177,15); (1685549780,15); (1685445389,15); (1685341003,15);
(1685236624,15); (1685132250,15); (1685027881,15); (1684923518,15); (1684819161,15); (1684714810,15); (1684610464,15); (1684506124,15);
(1684401790,15); (1684297462,15); (1684193139,15); (1684088821,15); (1683984510,15); (1683880204,15); (1683775904,15); (1683671609,15);
(1683567320,15); (1683463037,15); (1683358760,15); (1683254488,15); (1683150222,15); (1683045961,15); (1682941706,15); (1682837457,15);
(1682733214,15); (1682628976,15); (1682524744,15); (1682420518,15); (1682316297,15); (1682212082,15); (1682107872,15); (1682003669,15);
(1681899471,15); (1681795278,15); (1681691091,15); (1681586910,15); (1681482735,15); (1681378565,15); (1681274401,15); (1681170243,15);
(1681066090,15); (1680961943,15); (1680857802,15); (1680753666,15); (1680649536,15); (1680545412,15); (1680441293,15); (1680337180,15);
(1680233072,15); (1680128971,15); (1680024875,15); (1679920784,15); (1679816699,15); (1679712620,15); (1679608547,15); (1679504479,15);
(1679400417,15); (1679296361,15); (1679192310,15); (1679088265,15); (1678984225,15); (1678880191,15); (1678776163,15); (1678672141,15);
(1678568124,15); (1678464113,15); (1678360107,15); (1678256107,15); (1678152113,15); (1678048124,15); (1677944141,15); (1677840164,15);
(1677736193,15); (1677632227,15); (1677528266,15); (1677424312,15); (1677320363,15); (1677216419,15); (1677112482,15); (1677008549,15);
(1676904623,15); (1676800702,15); (1676696787,15); (1676592878,15); (1676488974,15); (1676385076,15); (1676281183,15); (1676177296,15);
(1676073415,15); (1675969539,15); (1675865669,15); (1675761805,15); (1675657946,15); (1675554093,15); (1675450246,15); (1675346404,15);
(1675242568,15); (1675138738,15); (1675034913,15); (1674931094,15); (1674827280,15); (1674723472,15); (1674619670,15); (1674515873,15);
(1674412082,15); (1674308297,15); (1674204517,15); (1674100743,15); (1673996975,15); (1673893212,15); (1673789455,15); (1673685703,15);
(1673581957,15); (1673478217,15); (1673374482,15); (1673270753,15); (1673167030,15); (1673063312,15); (1672959600,15); (1672855894,15);
(1672752193,15); (1672648498,15); (1672544808,15); (1672441124,15); (1672337446,15); (1672233773,15); (1672130106,15); (1672026444,15);
(1671922789,15); (1671819138,15); (1671715494,15); (1671611855,15); (1671508221,15); (1671404594,15); (1671300972,15); (1671197355,15);
(1671093744,15); (1670990139,15); (1670886540,15); (1670782946,15); (1670679357,15); (1670575775,15); (1670472197,15); (1670368626,15)].

(** entries 36864..38911 *)
Definition RECIPROCAL_18 : list (Z * Z) := [
(1670265060,15); (1670161500,15); (1670057945,15); (1669954396,15); (1669850853,15); (1669747315,15); (1669643783,15); (1669540256,15);
(1669436735,15); (1669333220,15); (1669229710,15); (1669126206,15); (1669022708,15); (1668919215,15); (1668815728,15); (1668712246,15);
(1668608770,15); (1668505300,15); (1668401835,15); (1668298376,15); (1668194922,15); (1668091474,15); (1667988032,15); (1667884595,15);
(1667781164,15); (1667677738,15); (1667574318,15); (1667470904,15); (1667367495,15); (1667264092,15); (1667160695,15); (1667057303,15);
(1666953916,15); (1666850536,15); (1666747161,15); (1666643791,15); (1666540427,15); (1666437069,15); (1666333716,15); (1666230369,15);
(1666127028,15); (1666023692,15); (1665920361,15); (1665817037,15); (1665713718,15); (1665610404,15); (1665507096,15); (1665403794,15);
(1665300497,15); (1665197206,15); (1665093921,15); (1664990641,15); (1664887367,15); (1664784098,15); (1664680835,15); (1664577577,15);
(1664474325,15); (1664371079,15); (1664267838,15); (1664164603,15); (1664061373,15); (1663958150,15); (1663854931,15); (1663751718,15);
(1663648511,15); (1663545310,15); (1663442114,15); (1663338923,15); (1663235738,15); (1663132559,15); (1663029385,15); (1662926217,15);
(1662823055,15); (1662719898,15); (1662616747,15); (1662513601,15); (1662410461,15); (1662307326,15); (1662204197,15); (1662101074,15);
(1661997956,15); (1661894844,15); (1661791737,15); (1661688636,15); (1661585540,15); (1661482451,15); (1661379366,15); (1661276287,15);
(1661173214,15); (1661070147,15); (1660967085,15); (1660864028,15); (1660760977,15); (1660657932,15); (1660554892,15); (1660451858,15);
(1660348830,15); (1660245807,15); (1660142789,15); (1660039777,15); (1659936771,15); (1659833770,15); (1659730775,15); (1659627786,15);
(1659524802,15); (1659421823,15); (1659318851,15); (1659215883,15); (1659112922,15); (1659009966,15); (1658907015,15); (1658804070,15);
(1658701131,15); (1658598197,15); (1658495268,15); (1658392346,15); (1658289429,15); (1658186517,15); (1658083611,15); (1657980711,15);
(1657877816,15); (1657774926,15); (1657672043,15); (1657569164,15); (1657466292,15); (1657363425,15); (1657260563,15); (1657157707,15);
(1657054857,15); (1656952012,15); (1656849173,15); (1656746339,15); (1656643511,15); (1656540688,15); (1656437871,15); (1656335060,15);
(1656232254,15); (1656129454,15); (1656026659,15); (1655923870,15); (1655821086,15); (1655718308,15); (1655615535,15); (1655512768,15);
(1655410007,15); (1655307251,15); (1655204500,15); (1655101756,15); (1654999016,15); (1654896283,15); (1654793555,15); (1654690832,15);
(1654588115,15); (1654485403,15); (1654382697,15); (1654279997,15); (1654177302,15); (1654074613,15); (1653971929,15); (1653869251,15);
(1653766578,15); (1653663911,15); (1653561249,15); (1653458593,15); (1653355943,15); (1653253298,15); (1653150659,15); (1653048025,15);
(1652945396,15); (1652842774,15); (1652740156,15); (1652637545,15); (1652534939,15); (1652432338,15); (1652329743,15); (1652227153,15);
(1652124569,15); (1652021991,15); (1651919418,15); (1651816851,15); (1651714289,15); (1651611733,15); (1651509182,15); (1651406637,15);
(1651304097,15); (1651201563,15); (1651099034,15); (1650996511,15); (1650893994,15); (1650791482,15); (1650688975,15); (1650586474,15);
(1650483979,15); (1650381489,15); (1650279004,15); (1650176526,15); (1650074052,15); (1649971585,15); (1649869122,15); (1649766666,15);
(1649664214,15); (1649561769,15); (1649459329,15); (1649356894,15); (1649254465,15); (1649152041,15); (1649049623,15); (1648947211,15);
(1648844804,15); (1648742403,15); (1648640007,15); (1648537616,15); (1648435231,15); (1648332852,15); (1648230478,15); (1648128110,15);
(1648025747,15); (1647923390,15); (1647821038,15); (1647718692,15); (1647616351,15); (1647514016,15); (1647411686,15); (1647309362,15);
(1647207044,15); (1647104731,15); (1647002423,15); (1646900121,15); (1646797824,15); (1646695533,15); (1646593248,15); (1646490968,15);
(1646388693,15); (1646286424,15); (1646184161,15); (1646081903,15); (1645979650,15); (1645877404,15); (1645775162,15); (1645672926,15);
(1645570696,15); (1645468471,15); (1645366252,15); (1645264038,15); (1645161829,15); (1645059627,15); (1644957429,15); (1644855237,15);
(1644753051,15); (1644650870,15); (1644548695,15); (1644446525,15); (1644344361,15); (1644242202,15); (1644140049,15); (1644037901,15);
(1643935759,15); (1643833622,15); (1643731491,15); (1643629365,15); (1643527245,15); (1643425130,15); (1643323020,15); (1643220917,15);
(1643118818,15); (1643016726,15); (1642914638,15); (1642812557,15); (1642710480,15); (1642608410,15); (1642506344,15); (1642404285,15);
(1642302230,15); (1642200181,15); (1642098138,15); (1641996100,15); (1641894068,15); (1641792041,15); (1641690020,15); (1641588004,15);
(1641485994,15); (1641383989,15); (1641281990,15); (1641179996,15); (1641078007,15); (1640976025,15); (1640874047,15); (1640772075,15);
(1640670109,15); (1640568148,15); (1640466192,15); (1640364243,15); (1640262298,15); (1640160359,15); (1640058426,15); (1639956498,15);
(1639854575,15); (1639752658,15); (1639650747,15); (1639548841,15); (1639446940,15); (1639345045,15); (1639243155,15); (1639141271,15);
(1639039393,15); (1638937519,15); (1638835652,15); (1638733790,15); (1638631933,15); (1638530082,15); (1638428236,15); (1638326396,15);
(1638224561,15); (1638122732,15); (1638020908,15); (1637919089,15); (1637817277,15); (1637715469,15); (1637613667,15); (1637511871,15);
(1637410080,15); (1637308294,15); (1637206514,15); (1637104740,15); (1637002971,15); (1636901207,15); (1636799449,15); (1636697696,15);
(1636595949,15); (1636494207,15); (1636392471,15); (1636290740,15); (1636189015,15); (1636087295,15); (1635985581,15); (1635883872,15);
(1635782169,15); (1635680471,15); (1635578778,15); (1635477091,15); (1635375409,15); (1635273733,15); (1635172063,15); (1635070398,15);
(1634968738,15); (1634867084,15); (1634765435,15); (1634663792,15); (1634562154,15); (1634460521,15); (1634358894,15); (1634257273,15);
(1634155657,15); (1634054046,15); (1633952441,15); (1633850842,15); (1633749248,15); (1633647659,15); (1633546076,15); (1633444498,15);
(1633342926,15); (1633241359,15); (1633139797,15); (1633038241,15); (1632936691,15); (1632835146,15); (1632733606,15); (1632632072,15);
(1632530543,15); (1632429020,15); (1632327502,15); (1632225990,15); (1632124483,15); (1632022982,15); (1631921486,15); (1631819995,15);
(1631718510,15); (1631617031,15); (1631515556,15); (1631414088,15); (1631312625,15); (1631211167,15); (1631109714,15); (1631008267,15);
(1630906826,15); (1630805390,15); (1630703959,15); (1630602534,15); (1630501115,15); (1630399700,15); (1630298291,15); (1630196888,15);
(1630095490,15); (1629994098,15); (1629892711,15); (1629791329,15); (1629689953,15); (1629588582,15); (1629487217,15); (1629385857,15);
(1629284503,15); (1629183154,15); (1629081810,15); (1628980472,15); (1628879140,15); (1628777813,15); (1628676491,15); (1628575175,15);
(1628473864,15); (1628372558,15); (1628271258,15); (1628169964,15); (1628068675,15); (1627967391,15); (1627866113,15); (1627764840,15);
(1627663572,15); (1627562310,15); (1627461054,15); (1627359803,15); (1627258557,15); (1627157317,15); (1627056082,15); (1626954853,15);
(1626853629,15); (1626752410,15); (1626651197,15); (1626549989,15); (1626448787,15); (1626347590,15); (1626246399,15); (1626145213,15);
(1626044033,15); (1625942857,15); (1625841688,15); (1625740524,15); (1625639365,15); (1625538211,15); (1625437063,15); (1625335921,15);
(1625234784,15); (1625133652,15); (1625032526,15); (1624931405,15); (1624830289,15); (1624729179,15); (1624628075,15); (1624526976,15);
(1624425882,15); (1624324793,15); (1624223710,15); (1624122633,15); (1624021561,15); (1623920494,15); (1623819433,15); (1623718377,15);
(1623617327,15); (1623516282,15); (1623415242,15); (1623314208,15); (1623213179,15); (1623112156,15); (1623011138,15); (1622910125,15);
(1622809118,15); (1622708116,15); (1622607120,15); (1622506129,15); (1622405144,15); (1622304164,15); (1622203189,15); (1622102220,15);
(1622001256,15); (1621900298,15); (1621799345,15); (1621698397,15); (1621597455,15); (1621496518,15); (1621395586,15); (1621294660,15);
(1621193740,15); (1621092825,15); (1620991915,15); (1620891011,15); (1620790112,15); (1620689218,15); (1620588330,15); (1620487447,15);
(1620386570,15); (1620285698,15); (1620184831,15); (1620083970,15); (1619983114,15); (1619882264,15); (1619781419,15); (1619680579,15);
(1619579745,15); (1619478917,15); (1619378093,15); (1619277275,15); (1619176463,15); (1619075655,15); (1618974854,15); (1618874057,15);
(1618773266,15); (1618672481,15); (1618571701,15); (1618470926,15); (1618370156,15); (1618269392,15); (1618168634,15); (1618067880,15);
(1617967133,15); (1617866390,15); (1617765653,15); (1617664921,15); (1617564195,15); (1617463474,15); (1617362759,15); (1617262049,15);
(1617161344,15); (1617060644,15); (1616959951,15); (1616859262,15); (1616758579,15); (1616657901,15); (1616557229,15); (1616456562,15);
(1616355900,15); (1616255244,15); (1616154593,15); (1616053947,15); (1615953307,15); (1615852672,15); (1615752043,15); (1615651419,15);
(1615550801,15); (1615450187,15); (1615349579,15); (1615248977,15); (1615148380,15); (1615047788,15); (1614947202,15); (1614846621,15);
(1614746045,15); (1614645475,15); (1614544911,15); (1614444351,15); (1614343797,15); (1614243248,15); (1614142705,15); (1614042167,15);
(1613941635,15); (1613841107,15); (1613740586,15); (1613640069,15); (1613539558,15); (1613439052,15); (1613338552,15); (1613238057,15);
(1613137568,15); (1613037083,15); (1612936605,15); (1612836131,15); (1612735663,15); (1612635200,15); (1612534743,15); (1612434291,15);
(1612333844,15); (1612233403,15); (1612132967,15); (1612032537,15); (1611932112,15); (1611831692,15); (1611731277,15); (1611630868,15);
(1611530465,15); (1611430066,15); (1611329673,15); (1611229286,15); (1611128903,15); (1611028526,15); (1610928155,15); (1610827789,15);
(1610727428,15); (1610627073,15); (1610526722,15); (1610426378,15); (1610326038,15); (1610225704,15); (1610125376,15); (1610025052,15);
(1609924734,15); (1609824422,15); (1609724115,15); (1609623813,15); (1609523516,15); (1609423225,15); (1609322939,15); (1609222659,15);
(1609122384,15); (1609022114,15); (1608921850,15); (1608821591,15); (1608721337,15); (1608621089,15); (1608520846,15); (1608420608,15);
(1608320376,15); (1608220149,15); (1608119927,15); (1608019711,15); (1607919500,15); (1607819294,15); (1607719094,15); (1607618899,15);
(1607518710,15); (1607418526,15); (1607318347,15); (1607218173,15); (1607118005,15); (1607017843,15); (1606917685,15); (1606817533,15);
(1606717386,15); (1606617245,15); (1606517109,15); (1606416978,15); (1606316853,15); (1606216733,15); (1606116618,15); (1606016509,15);
(1605916405,15); (1605816306,15); (1605716213,15); (1605616125,15); (1605516042,15); (1605415965,15); (1605315893,15); (1605215826,15);
(1605115765,15); (1605015709,15); (1604915658,15); (1604815613,15); (1604715573,15); (1604615538,15); (1604515509,15); (1604415485,15);
(1604315466,15); (1604215453,15); (1604115445,15); (1604015442,15); (1603915445,15); (1603815453,15); (1603715466,15); (1603615485,15);
(1603515509,15); (1603415538,15); (1603315573,15); (1603215613,15); (1603115658,15); (1603015709,15); (1602915765,15); (1602815826,15);
(1602715893,15); (1602615965,15); (1602516042,15); (1602416125,15); (1602316213,15); (1602216306,15); (1602116405,15); (1602016508,15);
(1601916618,15); (1601816732,15); (1601716852,15); (1601616977,15); (1601517108,15); (1601417244,15); (1601317385,15); (1601217531,15);
(1601117683,15); (1601017840,15); (1600918003,15); (1600818170,15); (1600718343,15); (1600618522,15); (1600518706,15); (1600418895,15);
(1600319089,15); (1600219288,15); (1600119493,15); (1600019704,15); (1599919919,15); (1599820140,15); (1599720366,15); (1599620598,15);
(1599520835,15); (1599421077,15); (1599321324,15); (1599221577,15); (1599121835,15); (1599022099,15); (1598922367,15); (1598822641,15);
(1598722921,15); (1598623205,15); (1598523495,15); (1598423791,15); (1598324091,15); (1598224397,15); (1598124708,15); (1598025025,15);
(1597925346,15); (1597825674,15); (1597726006,15); (1597626344,15); (1597526687,15); (1597427035,15); (1597327389,15); (1597227747,15);
(1597128112,15); (1597028481,15); (1596928856,15); (1596829236,15); (1596729622,15); (1596630012,15); (1596530408,15); (1596430810,15);
(1596331216,15); (1596231628,15); (1596132045,15); (1596032468,15); (1595932896,15); (1595833329,15); (1595733767,15); (1595634211,15);
(1595534660,15); (1595435114,15); (1595335574,15); (1595236039,15); (1595136509,15); (1595036984,15); (1594937465,15); (1594837951,15);
(1594738442,15); (1594638939,15); (1594539441,15); (1594439948,15); (1594340461,15); (1594240978,15); (1594141502,15); (1594042030,15);
(1593942564,15); (1593843103,15); (1593743647,15); (1593644196,15); (1593544751,15); (1593445311,15); (1593345877,15); (1593246447,15);
(1593147023,15); (1593047604,15); (1592948191,15); (1592848783,15); (1592749380,15); (1592649982,15); (1592550590,15); (1592451203,15);
(1592351821,15); (1592252445,15); (1592153073,15); (1592053707,15); (1591954347,15); (1591854991,15); (1591755641,15); (1591656297,15);
(1591556957,15); (1591457623,15); (1591358294,15); (1591258970,15); (1591159652,15); (1591060339,15); (1590961031,15); (1590861728,15);
(1590762431,15); (1590663139,15); (1590563852,15); (1590464570,15); (1590365294,15); (1590266023,15); (1590166758,15); (1590067497,15);
(1589968242,15); (1589868992,15); (1589769748,15); (1589670508,15); (1589571274,15); (1589472046,15); (1589372822,15); (1589273604,15);
(1589174391,15); (1589075183,15); (1588975981,15); (1588876784,15); (1588777592,15); (1588678405,15); (1588579224,15); (1588480048,15);
(1588380877,15); (1588281711,15); (1588182551,15); (1588083396,15); (1587984246,15); (1587885101,15); (1587785962,15); (1587686828,15);
(1587587700,15); (1587488576,15); (1587389458,15); (1587290345,15); (1587191237,15); (1587092135,15); (1586993038,15); (1586893946,15);
(1586794859,15); (1586695778,15); (1586596702,15); (1586497631,15); (1586398565,15); (1586299505,15); (1586200450,15); (1586101400,15);
(1586002355,15); (1585903316,15); (1585804282,15); (1585705253,15); (1585606229,15); (1585507211,15); (1585408198,15); (1585309190,15);
(1585210188,15); (1585111190,15); (1585012198,15); (1584913211,15); (1584814230,15); (1584715253,15); (1584616282,15); (1584517317,15);
(1584418356,15); (1584319401,15); (1584220451,15); (1584121506,15); (1584022566,15); (1583923632,15); (1583824703,15); (1583725779,15);
(1583626860,15); (1583527947,15); (1583429039,15); (1583330136,15); (1583231238,15); (1583132346,15); (1583033459,15); (1582934577,15);
(1582835700,15); (1582736829,15); (1582637963,15); (1582539102,15); (1582440246,15); (1582341396,15); (1582242550,15); (1582143711,15);
(1582044876,15); (1581946046,15); (1581847222,15); (1581748403,15); (1581649589,15); (1581550781,15); (1581451977,15); (1581353179,15);
(1581254387,15); (1581155599,15); (1581056817,15); (1580958039,15); (1580859267,15); (1580760501,15); (1580661739,15); (1580562983,15);
(1580464232,15); (1580365486,15); (1580266746,15); (1580168011,15); (1580069281,15); (1579970556,15); (1579871836,15); (1579773122,15);
(1579674413,15); (1579575709,15); (1579477010,15); (1579378317,15); (1579279629,15); (1579180946,15); (1579082268,15); (1578983595,15);
(1578884928,15); (1578786266,15); (1578687609,15); (1578588957,15); (1578490311,15); (1578391670,15); (1578293034,15); (1578194403,15);
(1578095777,15); (1577997157,15); (1577898542,15); (1577799932,15); (1577701327,15); (1577602728,15); (1577504134,15); (1577405545,15);
(1577306961,15); (1577208383,15); (1577109809,15); (1577011241,15); (1576912678,15); (1576814121,15); (1576715568,15); (1576617021,15);
(1576518479,15); (1576419942,15); (1576321410,15); (1576222884,15); (1576124363,15); (1576025847,15); (1575927336,15); (1575828830,15);
(1575730330,15); (1575631835,15); (1575533345,15); (1575434860,15); (1575336381,15); (1575237907,15); (1575139438,15); (1575040974,15);
(1574942515,15); (1574844062,15); (1574745613,15); (1574647170,15); (1574548733,15); (1574450300,15); (1574351873,15); (1574253450,15);
(1574155033,15); (1574056622,15); (1573958215,15); (1573859814,15); (1573761417,15); (1573663026,15); (1573564641,15); (1573466260,15);
(1573367885,15); (1573269515,15); (1573171150,15); (1573072790,15); (1572974435,15); (1572876086,15); (1572777742,15); (1572679403,15);
(1572581069,15); (1572482740,15); (1572384417,15); (1572286099,15); (1572187786,15); (1572089478,15); (1571991176,15); (1571892878,15);
(1571794586,15); (1571696299,15); (1571598017,15); (1571499741,15); (1571401469,15); (1571303203,15); (1571204942,15); (1571106686,15);
(1571008435,15); (1570910190,15); (1570811950,15); (1570713715,15); (1570615485,15); (1570517260,15); (1570419041,15); (1570320826,15);
(1570222617,15); (1570124413,15); (1570026214,15); (1569928021,15); (1569829833,15); (1569731649,15); (1569633471,15); (1569535299,15);
(1569437131,15); (1569338969,15); (1569240811,15); (1569142659,15); (1569044512,15); (1568946371,15); (1568848234,15); (1568750103,15);
(1568651977,15); (1568553856,15); (1568455740,15); (1568357629,15); (1568259524,15); (1568161424,15); (1568063328,15); (1567965239,15);
(1567867154,15); (1567769074,15); (1567671000,15); (1567572931,15); (1567474867,15); (1567376808,15); (1567278754,15); (1567180706,15);
(1567082663,15); (1566984624,15); (1566886591,15); (1566788564,15); (1566690541,15); (1566592524,15); (1566494511,15); (1566396504,15);
(1566298502,15); (1566200506,15); (1566102514,15); (1566004528,15); (1565906547,15); (1565808571,15); (1565710600,15); (1565612634,15);
(1565514673,15); (1565416718,15); (1565318768,15); (1565220823,15); (1565122883,15); (1565024948,15); (1564927019,15); (1564829094,15);
(1564731175,15); (1564633261,15); (1564535352,15); (1564437449,15); (1564339550,15); (1564241657,15); (1564143768,15); (1564045885,15);
(1563948007,15); (1563850135,15); (1563752267,15); (1563654405,15); (1563556548,15); (1563458695,15); (1563360849,15); (1563263007,15);
(1563165170,15); (1563067339,15); (1562969512,15); (1562871691,15); (1562773875,15); (1562676065,15); (1562578259,15); (1562480458,15);
(1562382663,15); (1562284873,15); (1562187088,15); (1562089308,15); (1561991533,15); (1561893764,15); (1561795999,15); (1561698240,15);
(1561600486,15); (1561502737,15); (1561404993,15); (1561307254,15); (1561209521,15); (1561111793,15); (1561014069,15); (1560916351,15);
(1560818638,15); (1560720931,15); (1560623228,15); (1560525531,15); (1560427838,15); (1560330151,15); (1560232469,15); (1560134792,15);
(1560037121,15); (1559939454,15); (1559841793,15); (1559744136,15); (1559646485,15); (1559548839,15); (1559451198,15); (1559353563,15);
(1559255932,15); (1559158307,15); (1559060686,15); (1558963071,15); (1558865461,15); (1558767856,15); (1558670257,15); (1558572662,15);
(1558475073,15); (1558377488,15); (1558279909,15); (1558182335,15); (1558084766,15); (1557987203,15); (1557889644,15); (1557792090,15);
(1557694542,15); (1557596999,15); (1557499461,15); (1557401928,15); (1557304400,15); (1557206878,15); (1557109360,15); (1557011848,15);
(1556914340,15); (1556816838,15); (1556719341,15); (1556621849,15); (1556524363,15); (1556426881,15); (1556329405,15); (1556231933,15);
(1556134467,15); (1556037006,15); (1555939550,15); (1555842099,15); (1555744654,15); (1555647213,15); (1555549778,15); (1555452347,15);
(1555354922,15); (1555257502,15); (1555160087,15); (1555062677,15); (1554965273,15); (1554867873,15); (1554770479,15); (1554673089,15);
(1554575705,15); (1554478326,15); (1554380952,15); (1554283583,15); (1554186220,15); (1554088861,15); (1553991508,15); (1553894159,15);
(1553796816,15); (1553699478,15); (1553602145,15); (1553504817,15); (1553407495,15); (1553310177,15); (1553212865,15); (1553115557,15);
(1553018255,15); (1552920958,15); (1552823666,15); (1552726379,15); (1552629097,15); (1552531820,15); (1552434549,15); (1552337282,15);
(1552240021,15); (1552142765,15); (1552045514,15); (1551948268,15); (1551851027,15); (1551753791,15); (1551656561,15); (1551559335,15);
(1551462115,15); (1551364899,15); (1551267689,15); (1551170484,15); (1551073284,15); (1550976089,15); (1550878899,15); (1550781715,15);
(1550684535,15); (1550587361,15); (1550490191,15); (1550393027,15); (1550295868,15); (1550198714,15); (1550101565,15); (1550004421,15);
(1549907282,15); (1549810149,15); (1549713020,15); (1549615897,15); (1549518779,15); (1549421665,15); (1549324557,15); (1549227454,15);
(1549130356,15); (1549033264,15); (1548936176,15); (1548839093,15); (1548742016,15); (1548644943,15); (1548547876,15); (1548450814,15);
(1548353757,15); (1548256705,15); (1548159658,15); (1548062616,15); (1547965579,15); (1547868548,15); (1547771521,15); (1547674500,15);
(1547577483,15); (1547480472,15); (1547383466,15); (1547286465,15); (1547189469,15); (1547092478,15); (1546995492,15); (1546898512,15);
(1546801536,15); (1546704566,15); (1546607600,15); (1546510640,15); (1546413685,15); (1546316735,15); (1546219789,15); (1546122850,15);
(1546025915,15); (1545928985,15); (1545832060,15); (1545735141,15); (1545638226,15); (1545541317,15); (1545444412,15); (1545347513,15);
(1545250619,15); (1545153730,15); (1545056846,15); (1544959967,15); (1544863093,15); (1544766224,15); (1544669360,15); (1544572502,15);
(1544475648,15); (1544378800,15); (1544281956,15); (1544185118,15); (1544088285,15); (1543991457,15); (1543894634,15); (1543797816,15);
(1543701003,15); (1543604195,15); (1543507393,15); (1543410595,15); (1543313802,15); (1543217015,15); (1543120232,15); (1543023455,15);
(1542926683,15); (1542829916,15); (1542733153,15); (1542636396,15); (1542539644,15); (1542442898,15); (1542346156,15); (1542249419,15);
(1542152687,15); (1542055961,15); (1541959239,15); (1541862523,15); (1541765811,15); (1541669105,15); (1541572404,15); (1541475708,15);
(1541379016,15); (1541282330,15); (1541185649,15); (1541088974,15); (1540992303,15); (1540895637,15); (1540798976,15); (1540702321,15);
(1540605670,15); (1540509024,15); (1540412384,15); (1540315749,15); (1540219118,15); (1540122493,15); (1540025873,15); (1539929258,15);
(1539832648,15); (1539736043,15); (1539639443,15); (1539542848,15); (1539446258,15); (1539349673,15); (1539253094,15); (1539156519,15);
(1539059949,15); (1538963385,15); (1538866825,15); (1538770271,15); (1538673722,15); (1538577177,15); (1538480638,15); (1538384104,15);
(1538287575,15); (1538191051,15); (1538094532,15); (1537998018,15); (1537901509,15); (1537805005,15); (1537708506,15); (1537612013,15);
(1537515524,15); (1537419040,15); (1537322562,15); (1537226088,15); (1537129620,15); (1537033156,15); (1536936698,15); (1536840245,15);
(1536743796,15); (1536647353,15); (1536550915,15); (1536454482,15); (1536358054,15); (1536261631,15); (1536165213,15); (1536068800,15);
(1535972392,15); (1535875989,15); (1535779591,15); (1535683199,15); (1535586811,15); (1535490428,15); (1535394051,15); (1535297678,15);
(1535201311,15); (1535104948,15); (1535008591,15); (1534912238,15); (1534815891,15); (1534719549,15); (1534623211,15); (1534526879,15);
(1534430552,15); (1534334230,15); (1534237913,15); (1534141601,15); (1534045293,15); (1533948991,15); (1533852695,15); (1533756403,15);
(1533660116,15); (1533563834,15); (1533467557,15); (1533371285,15); (1533275019,15); (1533178757,15); (1533082500,15); (1532986249,15);
(1532890002,15); (1532793760,15); (1532697524,15); (1532601292,15); (1532505066,15); (1532408844,15); (1532312628,15); (1532216417,15);
(1532120210,15); (1532024009,15); (1531927813,15); (1531831622,15); (1531735435,15); (1531639254,15); (1531543078,15); (1531446907,15);
(1531350741,15); (1531254580,15); (1531158424,15); (1531062273,15); (1530966127,15); (1530869986,15); (1530773850,15); (1530677719,15);
(1530581593,15); (1530485472,15); (1530389356,15); (1530293245,15); (1530197139,15); (1530101039,15); (1530004943,15); (1529908852,15);
(1529812766,15); (1529716686,15); (1529620610,15); (1529524539,15); (1529428474,15); (1529332413,15); (1529236358,15); (1529140307,15);
(1529044261,15); (1528948221,15); (1528852185,15); (1528756155,15); (1528660129,15); (1528564109,15); (1528468093,15); (1528372083,15);
(1528276078,15); (1528180077,15); (1528084082,15); (1527988091,15); (1527892106,15); (1527796126,15); (1527700150,15); (1527604180,15);
(1527508215,15); (1527412254,15); (1527316299,15); (1527220349,15); (1527124404,15); (1527028463,15); (1526932528,15); (1526836598,15);
(1526740673,15); (1526644752,15); (1526548837,15); (1526452927,15); (1526357022,15); (1526261121,15); (1526165226,15); (1526069336,15);
(1525973451,15); (1525877571,15); (1525781696,15); (1525685825,15); (1525589960,15); (1525494100,15); (1525398245,15); (1525302395,15);
(1525206550,15); (1525110710,15); (1525014874,15); (1524919044,15); (1524823219,15); (1524727399,15); (1524631584,15); (1524535774,15);
(1524439969,15); (1524344168,15); (1524248373,15); (1524152583,15); (1524056798,15); (1523961018,15); (1523865243,15); (1523769473,15);
(1523673707,15); (1523577947,15); (1523482192,15); (1523386442,15); (1523290697,15); (1523194956,15); (1523099221,15); (1523003491,15);
(1522907766,15); (1522812046,15); (1522716330,15); (1522620620,15); (1522524915,15); (1522429215,15); (1522333520,15); (1522237829,15);
(1522142144,15); (1522046464,15); (1521950788,15); (1521855118,15); (1521759453,15); (1521663792,15); (1521568137,15); (1521472487,15);
(1521376841,15); (1521281201,15); (1521185566,15); (1521089935,15); (1520994310,15); (1520898689,15); (1520803074,15); (1520707463,15);
(1520611858,15); (1520516258,15); (1520420662,15); (1520325071,15); (1520229486,15); (1520133905,15); (1520038330,15); (1519942759,15);
(1519847194,15); (1519751633,15); (1519656077,15); (1519560527,15); (1519464981,15); (1519369440,15); (1519273904,15); (1519178374,15);
(1519082848,15); (1518987327,15); (1518891811,15); (1518796300,15); (1518700794,15); (1518605293,15); (1518509798,15); (1518414307,15);
(1518318821,15); (1518223340,15); (1518127864,15); (1518032392,15); (1517936926,15); (1517841465,15); (1517746009,15); (1517650558,15);
(1517555112,15); (1517459671,15); (1517364234,15); (1517268803,15); (1517173377,15); (1517077955,15); (1516982539,15); (1516887127,15);
(1516791721,15); (1516696320,15); (1516600923,15); (1516505532,15); (1516410145,15); (1516314763,15); (1516219387,15); (1516124015,15);
(1516028648,15); (1515933287,15); (1515837930,15); (1515742578,15); (1515647231,15); (1515551889,15); (1515456552,15); (1515361220,15);
(1515265893,15); (1515170571,15); (1515075254,15); (1514979942,15); (1514884635,15); (1514789333,15); (1514694035,15); (1514598743,15);
(1514503456,15); (1514408173,15); (1514312896,15); (1514217624,15); (1514122356,15); (1514027094,15); (1513931836,15); (1513836583,15);
(1513741336,15); (1513646093,15); (1513550855,15); (1513455622,15); (1513360395,15); (1513265172,15); (1513169954,15); (1513074741,15);
(1512979533,15); (1512884330,15); (1512789132,15); (1512693938,15); (1512598750,15); (1512503567,15); (1512408389,15); (1512313215,15);
(1512218047,15); (1512122883,15); (1512027725,15); (1511932571,15); (1511837423,15); (1511742279,15); (1511647140,15); (1511552006,15);
(1511456878,15); (1511361754,15); (1511266635,15); (1511171521,15); (1511076412,15); (1510981308,15); (1510886208,15); (1510791114,15);
(1510696025,15); (1510600941,15); (1510505861,15); (1510410787,15); (1510315717,15); (1510220653,15); (1510125593,15); (1510030538,15);
(1509935489,15); (1509840444,15); (1509745404,15); (1509650369,15); (1509555339,15); (1509460314,15); (1509365294,15); (1509270279,15);
(1509175268,15); (1509080263,15); (1508985263,15); (1508890267,15); (1508795277,15); (1508700291,15); (1508605311,15); (1508510335,15);
(1508415364,15); (1508320398,15); (1508225438,15); (1508130482,15); (1508035531,15); (1507940584,15); (1507845643,15); (1507750707,15);
(1507655776,15); (1507560849,15); (1507465928,15); (1507371012,15); (1507276100,15); (1507181193,15); (1507086292,15); (1506991395,15);
(1506896503,15); (1506801616,15); (1506706734,15); (1506611857,15); (1506516985,15); (1506422118,15); (1506327255,15); (1506232398,15);
(1506137546,15); (1506042698,15); (1505947855,15); (1505853018,15); (1505758185,15); (1505663357,15); (1505568534,15); (1505473716,15);
(1505378903,15); (1505284095,15); (1505189292,15); (1505094494,15); (1504999700,15); (1504904912,15); (1504810128,15); (1504715350,15);
(1504620576,15); (1504525807,15); (1504431043,15); (1504336284,15); (1504241530,15); (1504146781,15); (1504052037,15); (1503957298,15);
(1503862563,15); (1503767834,15); (1503673110,15); (1503578390,15); (1503483675,15); (1503388965,15); (1503294261,15); (1503199561,15);
(1503104866,15); (1503010175,15); (1502915490,15); (1502820810,15); (1502726135,15); (1502631464,15); (1502536798,15); (1502442138,15);
(1502347482,15); (1502252831,15); (1502158185,15); (1502063544,15); (1501968908,15); (1501874277,15); (1501779651,15); (1501685029,15);
(1501590413,15); (1501495801,15); (1501401194,15); (1501306593,15); (1501211996,15); (1501117404,15); (1501022817,15); (1500928235,15);
(1500833657,15); (1500739085,15); (1500644518,15); (1500549955,15); (1500455397,15); (1500360845,15); (1500266297,15); (1500171754,15);
(1500077216,15); (1499982683,15); (1499888155,15); (1499793631,15); (1499699113,15); (1499604599,15); (1499510091,15); (1499415587,15);
(1499321088,15); (1499226594,15); (1499132105,15); (1499037621,15); (1498943142,15); (1498848667,15); (1498754198,15); (1498659733,15);
(1498565274,15); (1498470819,15); (1498376369,15); (1498281924,15); (1498187484,15); (1498093049,15); (1497998618,15); (1497904193,15);
(1497809772,15); (1497715357,15); (1497620946,15); (1497526540,15); (1497432139,15); (1497337743,15); (1497243352,15); (1497148966,15);
(1497054584,15); (1496960208,15); (1496865836,15); (1496771469,15); (1496677107,15); (1496582750,15); (1496488398,15); (1496394051,15);
(1496299709,15); (1496205371,15); (1496111039,15); (1496016711,15); (1495922388,15); (1495828071,15); (1495733758,15); (1495639449,15);
(1495545146,15); (1495450848,15); (1495356554,15); (1495262266,15); (1495167982,15); (1495073703,15); (1494979429,15); (1494885160,15);
(1494790896,15); (1494696637,15); (1494602382,15); (1494508133,15); (1494413888,15); (1494319648,15); (1494225413,15); (1494131183,15);
(1494036958,15); (1493942738,15); (1493848522,15); (1493754312,15); (1493660106,15); (1493565905,15); (1493471709,15); (1493377518,15);
(1493283332,15); (1493189151,15); (1493094974,15); (1493000803,15); (1492906636,15); (1492812474,15); (1492718317,15); (1492624165,15);
(1492530018,15); (1492435875,15); (1492341738,15); (1492247605,15); (1492153478,15); (1492059355,15); (1491965237,15); (1491871124,15);
(1491777015,15); (1491682912,15); (1491588813,15); (1491494720,15); (1491400631,15); (1491306547,15); (1491212468,15); (1491118394,15);
(1491024324,15); (1490930260,15); (1490836200,15); (1490742146,15); (1490648096,15); (1490554051,15); (1490460011,15); (1490365975,15);
(1490271945,15); (1490177919,15); (1490083899,15); (1489989883,15); (1489895872,15); (1489801866,15); (1489707864,15); (1489613868,15);
(1489519876,15); (1489425890,15); (1489331908,15); (1489237931,15); (1489143959,15); (1489049991,15); (1488956029,15); (1488862071,15);
(1488768119,15); (1488674171,15); (1488580228,15); (1488486290,15); (1488392356,15); (1488298428,15); (1488204504,15); (1488110586,15);
(1488016672,15); (1487922763,15); (1487828858,15); (1487734959,15); (1487641065,15); (1487547175,15); (1487453290,15); (1487359410,15);
(1487265535,15); (1487171665,15); (1487077800,15); (1486983939,15); (1486890083,15); (1486796233,15); (1486702387,15); (1486608545,15);
(1486514709,15); (1486420878,15); (1486327051,15); (1486233229,15); (1486139412,15); (1486045600,15); (1485951793,15); (1485857991,15);
(1485764193,15); (1485670400,15); (1485576613,15); (1485482830,15); (1485389051,15); (1485295278,15); (1485201510,15); (1485107746,15);
(1485013987,15); (1484920233,15); (1484826484,15); (1484732740,15); (1484639000,15); (1484545266,15); (1484451536,15); (1484357811,15);
(1484264091,15); (1484170376,15); (1484076665,15); (1483982960,15); (1483889259,15); (1483795563,15); (1483701872,15); (1483608186,15);
(1483514504,15); (1483420827,15); (1483327156,15); (1483233489,15); (1483139827,15); (1483046169,15); (1482952517,15); (1482858869,15);
(1482765227,15); (1482671589,15); (1482577956,15); (1482484327,15); (1482390704,15); (1482297085,15); (1482203472,15); (1482109863,15);
(1482016259,15); (1481922659,15); (1481829065,15); (1481735475,15); (1481641890,15); (1481548310,15); (1481454735,15); (1481361165,15);
(1481267599,15); (1481174039,15); (1481080483,15); (1480986932,15); (1480893385,15); (1480799844,15); (1480706308,15); (1480612776,15);
(1480519249,15); (1480425727,15); (1480332209,15); (1480238697,15); (1480145189,15); (1480051687,15); (1479958189,15); (1479864695,15);
(1479771207,15); (1479677723,15); (1479584245,15); (1479490771,15); (1479397302,15); (1479303837,15); (1479210378,15); (1479116923,15);
(1479023474,15); (1478930029,15); (1478836588,15); (1478743153,15); (1478649722,15); (1478556297,15); (1478462876,15); (1478369460,15);
(1478276048,15); (1478182642,15); (1478089240,15); (1477995843,15); (1477902451,15); (1477809064,15); (1477715682,15); (1477622304,15);
(1477528931,15); (1477435563,15); (1477342200,15); (1477248842,15); (1477155488,15); (1477062139,15); (1476968795,15); (1476875456,15);
(1476782122,15); (1476688792,15); (1476595468,15); (1476502148,15); (1476408833,15); (1476315522,15); (1476222217,15); (1476128916,15);
(1476035620,15); (1475942329,15); (1475849043,15); (1475755761,15); (1475662485,15); (1475569213,15); (1475475946,15); (1475382683,15);
(1475289426,15); (1475196173,15); (1475102925,15); (1475009682,15); (1474916444,15); (1474823211,15); (1474729982,15); (1474636758,15);
(1474543539,15); (1474450325,15); (1474357115,15); (1474263910,15); (1474170711,15); (1474077515,15); (1473984325,15); (1473891140,15);
(1473797959,15); (1473704783,15); (1473611612,15); (1473518446,15); (1473425284,15); (1473332127,15); (1473238975,15); (1473145828,15);
(1473052686,15); (1472959548,15); (1472866416,15); (1472773288,15); (1472680165,15); (1472587046,15); (1472493933,15); (1472400824,15);
(1472307720,15); (1472214620,15); (1472121526,15); (1472028436,15); (1471935351,15); (1471842271,15); (1471749196,15); (1471656126,15);
(1471563060,15); (1471469999,15); (1471376943,15); (1471283891,15); (1471190845,15); (1471097803,15); (1471004766,15); (1470911734,15);
(1470818706,15); (1470725684,15); (1470632666,15); (1470539653,15); (1470446644,15); (1470353641,15); (1470260642,15); (1470167648,15);
(1470074659,15); (1469981675,15); (1469888695,15); (1469795720,15); (1469702750,15); (1469609785,15); (1469516824,15); (1469423869,15)].

(** entries 38912..40959 *)
Definition RECIPROCAL_19 : list (Z * Z) := [
(1469330918,15); (1469237971,15); (1469145030,15); (1469052093,15); (1468959162,15); (1468866234,15); (1468773312,15); (1468680395,15);
(1468587482,15); (1468494574,15); (1468401671,15); (1468308772,15); (1468215879,15); (1468122990,15); (1468030106,15); (1467937226,15);
(1467844352,15); (1467751482,15); (1467658617,15); (1467565757,15); (1467472901,15); (1467380051,15); (1467287205,15); (1467194363,15);
(1467101527,15); (1467008695,15); (1466915869,15); (1466823046,15); (1466730229,15); (1466637417,15); (1466544609,15); (1466451806,15);
(1466359007,15); (1466266214,15); (1466173425,15); (1466080641,15); (1465987862,15); (1465895088,15); (1465802318,15); (1465709553,15);
(1465616793,15); (1465524038,15); (1465431287,15); (1465338541,15); (1465245800,15); (1465153064,15); (1465060332,15); (1464967605,15);
(1464874883,15); (1464782166,15); (1464689453,15); (1464596746,15); (1464504043,15); (1464411344,15); (1464318651,15); (1464225962,15);
(1464133278,15); (1464040599,15); (1463947924,15); (1463855255,15); (1463762590,15); (1463669929,15); (1463577274,15); (1463484623,15);
(1463391977,15); (1463299336,15); (1463206700,15); (1463114068,15); (1463021441,15); (1462928819,15); (1462836202,15); (1462743589,15);
(1462650981,15); (1462558378,15); (1462465779,15); (1462373186,15); (1462280597,15); (1462188013,15); (1462095433,15); (1462002858,15);
(1461910289,15); (1461817723,15); (1461725163,15); (1461632607,15); (1461540056,15); (1461447510,15); (1461354969,15); (1461262432,15);
(1461169900,15); (1461077373,15); (1460984850,15); (1460892333,15); (1460799820,15); (1460707311,15); (1460614808,15); (1460522309,15);
(1460429815,15); (1460337326,15); (1460244841,15); (1460152362,15); (1460059887,15); (1459967416,15); (1459874951,15); (1459782490,15);
(1459690034,15); (1459597583,15); (1459505136,15); (1459412694,15); (1459320257,15); (1459227825,15); (1459135397,15); (1459042974,15);
(1458950556,15); (1458858143,15); (1458765734,15); (1458673330,15); (1458580931,15); (1458488536,15); (1458396146,15); (1458303761,15);
(1458211381,15); (1458119006,15); (1458026635,15); (1457934269,15); (1457841907,15); (1457749551,15); (1457657199,15); (1457564852,15);
(1457472509,15); (1457380171,15); (1457287838,15); (1457195510,15); (1457103187,15); (1457010868,15); (1456918554,15); (1456826245,15);
(1456733940,15); (1456641640,15); (1456549345,15); (1456457055,15); (1456364769,15); (1456272488,15); (1456180212,15); (1456087940,15);
(1455995673,15); (1455903411,15); (1455811154,15); (1455718901,15); (1455626653,15); (1455534410,15); (1455442172,15); (1455349938,15);
(1455257709,15); (1455165485,15); (1455073265,15); (1454981050,15); (1454888840,15); (1454796635,15); (1454704434,15); (1454612238,15);
(1454520047,15); (1454427861,15); (1454335679,15); (1454243502,15); (1454151329,15); (1454059162,15); (1453966999,15); (1453874841,15);
(1453782687,15); (1453690538,15); (1453598394,15); (1453506255,15); (1453414120,15); (1453321990,15); (1453229865,15); (1453137745,15);
(1453045629,15); (1452953518,15); (1452861411,15); (1452769310,15); (1452677213,15); (1452585121,15); (1452493033,15); (1452400950,15);
(1452308872,15); (1452216799,15); (1452124730,15); (1452032666,15); (1451940607,15); (1451848553,15); (1451756503,15); (1451664458,15);
(1451572417,15); (1451480382,15); (1451388351,15); (1451296324,15); (1451204303,15); (1451112286,15); (1451020274,15); (1450928266,15);
(1450836263,15); (1450744265,15); (1450652272,15); (1450560283,15); (1450468299,15); (1450376320,15); (1450284346,15); (1450192376,15);
(1450100411,15); (1450008450,15); (1449916495,15); (1449824543,15); (1449732597,15); (1449640656,15); (1449548719,15); (1449456786,15);
(1449364859,15); (1449272936,15); (1449181018,15); (1449089104,15); (1448997196,15); (1448905292,15); (1448813392,15); (1448721498,15);
(1448629608,15); (1448537722,15); (1448445842,15); (1448353966,15); (1448262095,15); (1448170228,15); (1448078367,15); (1447986509,15);
(1447894657,15); (1447802809,15); (1447710966,15); (1447619128,15); (1447527294,15); (1447435466,15); (1447343641,15); (1447251822,15);
(1447160007,15); (1447068197,15); (1446976391,15); (1446884590,15); (1446792794,15); (1446701003,15); (1446609216,15); (1446517434,15);
(1446425657,15); (1446333884,15); (1446242116,15); (1446150353,15); (1446058594,15); (1445966840,15); (1445875091,15); (1445783347,15);
(1445691607,15); (1445599871,15); (1445508141,15); (1445416415,15); (1445324694,15); (1445232978,15); (1445141266,15); (1445049559,15);
(1444957856,15); (1444866159,15); (1444774466,15); (1444682777,15); (1444591094,15); (1444499415,15); (1444407740,15); (1444316071,15);
(1444224406,15); (1444132745,15); (1444041090,15); (1443949439,15); (1443857793,15); (1443766151,15); (1443674514,15); (1443582882,15);
(1443491254,15); (1443399632,15); (1443308013,15); (1443216400,15); (1443124791,15); (1443033187,15); (1442941587,15); (1442849993,15);
(1442758402,15); (1442666817,15); (1442575236,15); (1442483660,15); (1442392089,15); (1442300522,15); (1442208960,15); (1442117402,15);
(1442025849,15); (1441934301,15); (1441842758,15); (1441751219,15); (1441659685,15); (1441568156,15); (1441476631,15); (1441385111,15);
(1441293595,15); (1441202085,15); (1441110579,15); (1441019077,15); (1440927580,15); (1440836088,15); (1440744601,15); (1440653118,15);
(1440561640,15); (1440470167,15); (1440378698,15); (1440287234,15); (1440195774,15); (1440104319,15); (1440012869,15); (1439921424,15);
(1439829983,15); (1439738547,15); (1439647115,15); (1439555689,15); (1439464267,15); (1439372849,15); (1439281436,15); (1439190028,15);
(1439098625,15); (1439007226,15); (1438915832,15); (1438824442,15); (1438733057,15); (1438641677,15); (1438550301,15); (1438458930,15);
(1438367564,15); (1438276203,15); (1438184846,15); (1438093493,15); (1438002146,15); (1437910803,15); (1437819464,15); (1437728131,15);
(1437636802,15); (1437545477,15); (1437454158,15); (1437362843,15); (1437271532,15); (1437180226,15); (1437088925,15); (1436997629,15);
(1436906337,15); (1436815050,15); (1436723767,15); (1436632490,15); (1436541216,15); (1436449948,15); (1436358684,15); (1436267425,15);
(1436176170,15); (1436084920,15); (1435993675,15); (1435902434,15); (1435811198,15); (1435719967,15); (1435628740,15); (1435537518,15);
(1435446300,15); (1435355088,15); (1435263879,15); (1435172676,15); (1435081477,15); (1434990283,15); (1434899093,15); (1434807908,15);
(1434716728,15); (1434625552,15); (1434534381,15); (1434443215,15); (1434352053,15); (1434260896,15); (1434169744,15); (1434078596,15);
(1433987453,15); (1433896314,15); (1433805180,15); (1433714051,15); (1433622926,15); (1433531806,15); (1433440691,15); (1433349580,15);
(1433258474,15); (1433167373,15); (1433076276,15); (1432985184,15); (1432894096,15); (1432803013,15); (1432711935,15); (1432620862,15);
(1432529793,15); (1432438728,15); (1432347668,15); (1432256613,15); (1432165563,15); (1432074517,15); (1431983476,15); (1431892439,15);
(1431801407,15); (1431710380,15); (1431619357,15); (1431528339,15); (1431437326,15); (1431346317,15); (1431255313,15); (1431164313,15);
(1431073318,15); (1430982328,15); (1430891342,15); (1430800361,15); (1430709385,15); (1430618413,15); (1430527446,15); (1430436484,15);
(1430345526,15); (1430254572,15); (1430163624,15); (1430072680,15); (1429981740,15); (1429890805,15); (1429799875,15); (1429708950,15);
(1429618029,15); (1429527113,15); (1429436201,15); (1429345294,15); (1429254391,15); (1429163494,15); (1429072600,15); (1428981712,15);
(1428890828,15); (1428799949,15); (1428709074,15); (1428618204,15); (1428527338,15); (1428436477,15); (1428345621,15); (1428254770,15);
(1428163923,15); (1428073080,15); (1427982242,15); (1427891409,15); (1427800581,15); (1427709757,15); (1427618937,15); (1427528123,15);
(1427437313,15); (1427346507,15); (1427255706,15); (1427164910,15); (1427074118,15); (1426983331,15); (1426892549,15); (1426801771,15);
(1426710998,15); (1426620229,15); (1426529465,15); (1426438706,15); (1426347951,15); (1426257201,15); (1426166455,15); (1426075715,15);
(1425984978,15); (1425894247,15); (1425803519,15); (1425712797,15); (1425622079,15); (1425531366,15); (1425440657,15); (1425349953,15);
(1425259253,15); (1425168559,15); (1425077868,15); (1424987183,15); (1424896502,15); (1424805825,15); (1424715153,15); (1424624486,15);
(1424533823,15); (1424443165,15); (1424352512,15); (1424261863,15); (1424171219,15); (1424080579,15); (1423989944,15); (1423899314,15);
(1423808688,15); (1423718067,15); (1423627450,15); (1423536838,15); (1423446231,15); (1423355628,15); (1423265030,15); (1423174436,15);
(1423083847,15); (1422993262,15); (1422902682,15); (1422812107,15); (1422721537,15); (1422630970,15); (1422540409,15); (1422449852,15);
(1422359300,15); (1422268752,15); (1422178209,15); (1422087671,15); (1421997137,15); (1421906607,15); (1421816083,15); (1421725562,15);
(1421635047,15); (1421544536,15); (1421454030,15); (1421363528,15); (1421273031,15); (1421182538,15); (1421092050,15); (1421001567,15);
(1420911088,15); (1420820613,15); (1420730144,15); (1420639679,15); (1420549218,15); (1420458762,15); (1420368311,15); (1420277864,15);
(1420187422,15); (1420096985,15); (1420006552,15); (1419916123,15); (1419825699,15); (1419735280,15); (1419644866,15); (1419554456,15);
(1419464050,15); (1419373649,15); (1419283253,15); (1419192861,15); (1419102474,15); (1419012091,15); (1418921713,15); (1418831340,15);
(1418740971,15); (1418650607,15); (1418560247,15); (1418469892,15); (1418379542,15); (1418289196,15); (1418198855,15); (1418108518,15);
(1418018186,15); (1417927858,15); (1417837535,15); (1417747216,15); (1417656903,15); (1417566593,15); (1417476289,15); (1417385988,15);
(1417295693,15); (1417205402,15); (1417115115,15); (1417024834,15); (1416934556,15); (1416844283,15); (1416754015,15); (1416663752,15);
(1416573493,15); (1416483238,15); (1416392988,15); (1416302743,15); (1416212502,15); (1416122266,15); (1416032035,15); (1415941808,15);
(1415851585,15); (1415761367,15); (1415671154,15); (1415580945,15); (1415490741,15); (1415400542,15); (1415310347,15); (1415220156,15);
(1415129970,15); (1415039789,15); (1414949612,15); (1414859440,15); (1414769272,15); (1414679109,15); (1414588951,15); (1414498797,15);
(1414408647,15); (1414318503,15); (1414228362,15); (1414138227,15); (1414048095,15); (1413957969,15); (1413867847,15); (1413777729,15);
(1413687617,15); (1413597508,15); (1413507404,15); (1413417305,15); (1413327211,15); (1413237121,15); (1413147035,15); (1413056954,15);
(1412966878,15); (1412876806,15); (1412786738,15); (1412696676,15); (1412606617,15); (1412516564,15); (1412426515,15); (1412336470,15);
(1412246430,15); (1412156395,15); (1412066364,15); (1411976338,15); (1411886316,15); (1411796299,15); (1411706286,15); (1411616278,15);
(1411526274,15); (1411436276,15); (1411346281,15); (1411256291,15); (1411166306,15); (1411076325,15); (1410986349,15); (1410896377,15);
(1410806410,15); (1410716447,15); (1410626489,15); (1410536536,15); (1410446587,15); (1410356643,15); (1410266703,15); (1410176767,15);
(1410086837,15); (1409996911,15); (1409906989,15); (1409817072,15); (1409727159,15); (1409637251,15); (1409547348,15); (1409457449,15);
(1409367554,15); (1409277665,15); (1409187779,15); (1409097898,15); (1409008022,15); (1408918151,15); (1408828283,15); (1408738421,15);
(1408648563,15); (1408558709,15); (1408468860,15); (1408379016,15); (1408289176,15); (1408199341,15); (1408109510,15); (1408019684,15);
(1407929862,15); (1407840045,15); (1407750232,15); (1407660424,15); (1407570620,15); (1407480821,15); (1407391027,15); (1407301237,15);
(1407211451,15); (1407121670,15); (1407031894,15); (1406942122,15); (1406852355,15); (1406762592,15); (1406672834,15); (1406583080,15);
(1406493331,15); (1406403587,15); (1406313846,15); (1406224111,15); (1406134380,15); (1406044653,15); (1405954931,15); (1405865214,15);
(1405775501,15); (1405685793,15); (1405596089,15); (1405506389,15); (1405416695,15); (1405327004,15); (1405237319,15); (1405147638,15);
(1405057961,15); (1404968289,15); (1404878621,15); (1404788958,15); (1404699299,15); (1404609645,15); (1404519996,15); (1404430351,15);
(1404340710,15); (1404251074,15); (1404161443,15); (1404071816,15); (1403982194,15); (1403892576,15); (1403802963,15); (1403713354,15);
(1403623749,15); (1403534150,15); (1403444554,15); (1403354964,15); (1403265378,15); (1403175796,15); (1403086219,15); (1402996646,15);
(1402907078,15); (1402817514,15); (1402727955,15); (1402638401,15); (1402548851,15); (1402459305,15); (1402369764,15); (1402280228,15);
(1402190696,15); (1402101168,15); (1402011645,15); (1401922127,15); (1401832613,15); (1401743103,15); (1401653599,15); (1401564098,15);
(1401474602,15); (1401385111,15); (1401295624,15); (1401206142,15); (1401116664,15); (1401027191,15); (1400937722,15); (1400848258,15);
(1400758798,15); (1400669343,15); (1400579892,15); (1400490446,15); (1400401004,15); (1400311567,15); (1400222134,15); (1400132706,15);
(1400043282,15); (1399953863,15); (1399864448,15); (1399775038,15); (1399685633,15); (1399596231,15); (1399506835,15); (1399417443,15);
(1399328055,15); (1399238672,15); (1399149293,15); (1399059919,15); (1398970550,15); (1398881184,15); (1398791824,15); (1398702468,15);
(1398613116,15); (1398523769,15); (1398434426,15); (1398345088,15); (1398255755,15); (1398166426,15); (1398077101,15); (1397987781,15);
(1397898465,15); (1397809154,15); (1397719848,15); (1397630546,15); (1397541248,15); (1397451955,15); (1397362666,15); (1397273382,15);
(1397184103,15); (1397094828,15); (1397005557,15); (1396916291,15); (1396827029,15); (1396737772,15); (1396648520,15); (1396559271,15);
(1396470028,15); (1396380789,15); (1396291554,15); (1396202324,15); (1396113098,15); (1396023877,15); (1395934660,15); (1395845448,15);
(1395756241,15); (1395667037,15); (1395577839,15); (1395488645,15); (1395399455,15); (1395310270,15); (1395221089,15); (1395131913,15);
(1395042741,15); (1394953574,15); (1394864411,15); (1394775252,15); (1394686099,15); (1394596949,15); (1394507805,15); (1394418664,15);
(1394329528,15); (1394240397,15); (1394151270,15); (1394062148,15); (1393973030,15); (1393883916,15); (1393794807,15); (1393705703,15);
(1393616603,15); (1393527507,15); (1393438416,15); (1393349330,15); (1393260248,15); (1393171170,15); (1393082097,15); (1392993029,15);
(1392903965,15); (1392814905,15); (1392725850,15); (1392636799,15); (1392547753,15); (1392458711,15); (1392369674,15); (1392280641,15);
(1392191613,15); (1392102589,15); (1392013570,15); (1391924555,15); (1391835545,15); (1391746539,15); (1391657537,15); (1391568540,15);
(1391479548,15); (1391390560,15); (1391301576,15); (1391212597,15); (1391123623,15); (1391034653,15); (1390945687,15); (1390856726,15);
(1390767769,15); (1390678817,15); (1390589869,15); (1390500926,15); (1390411987,15); (1390323053,15); (1390234123,15); (1390145198,15);
(1390056277,15); (1389967361,15); (1389878449,15); (1389789541,15); (1389700638,15); (1389611740,15); (1389522845,15); (1389433956,15);
(1389345071,15); (1389256190,15); (1389167314,15); (1389078442,15); (1388989575,15); (1388900712,15); (1388811854,15); (1388723000,15);
(1388634150,15); (1388545305,15); (1388456465,15); (1388367629,15); (1388278797,15); (1388189970,15); (1388101148,15); (1388012329,15);
(1387923516,15); (1387834707,15); (1387745902,15); (1387657101,15); (1387568306,15); (1387479514,15); (1387390727,15); (1387301945,15);
(1387213167,15); (1387124393,15); (1387035624,15); (1386946859,15); (1386858099,15); (1386769344,15); (1386680592,15); (1386591845,15);
(1386503103,15); (1386414365,15); (1386325632,15); (1386236903,15); (1386148178,15); (1386059458,15); (1385970743,15); (1385882031,15);
(1385793325,15); (1385704622,15); (1385615925,15); (1385527231,15); (1385438542,15); (1385349858,15); (1385261178,15); (1385172502,15);
(1385083831,15); (1384995165,15); (1384906502,15); (1384817845,15); (1384729191,15); (1384640543,15); (1384551898,15); (1384463258,15);
(1384374623,15); (1384285992,15); (1384197365,15); (1384108743,15); (1384020125,15); (1383931512,15); (1383842903,15); (1383754299,15);
(1383665699,15); (1383577104,15); (1383488513,15); (1383399926,15); (1383311344,15); (1383222766,15); (1383134193,15); (1383045624,15);
(1382957060,15); (1382868500,15); (1382779944,15); (1382691393,15); (1382602847,15); (1382514305,15); (1382425767,15); (1382337234,15);
(1382248705,15); (1382160181,15); (1382071661,15); (1381983145,15); (1381894634,15); (1381806127,15); (1381717625,15); (1381629128,15);
(1381540634,15); (1381452145,15); (1381363661,15); (1381275181,15); (1381186705,15); (1381098234,15); (1381009768,15); (1380921305,15);
(1380832848,15); (1380744394,15); (1380655945,15); (1380567501,15); (1380479061,15); (1380390625,15); (1380302194,15); (1380213767,15);
(1380125345,15); (1380036927,15); (1379948513,15); (1379860104,15); (1379771700,15); (1379683300,15); (1379594904,15); (1379506513,15);
(1379418126,15); (1379329743,15); (1379241365,15); (1379152992,15); (1379064622,15); (1378976258,15); (1378887897,15); (1378799541,15);
(1378711190,15); (1378622843,15); (1378534500,15); (1378446162,15); (1378357828,15); (1378269499,15); (1378181174,15); (1378092854,15);
(1378004538,15); (1377916226,15); (1377827919,15); (1377739616,15); (1377651318,15); (1377563024,15); (1377474734,15); (1377386449,15);
(1377298169,15); (1377209892,15); (1377121621,15); (1377033353,15); (1376945090,15); (1376856832,15); (1376768578,15); (1376680328,15);
(1376592083,15); (1376503842,15); (1376415605,15); (1376327373,15); (1376239146,15); (1376150922,15); (1376062704,15); (1375974489,15);
(1375886279,15); (1375798074,15); (1375709873,15); (1375621676,15); (1375533484,15); (1375445296,15); (1375357112,15); (1375268933,15);
(1375180759,15); (1375092588,15); (1375004423,15); (1374916261,15); (1374828104,15); (1374739952,15); (1374651804,15); (1374563660,15);
(1374475521,15); (1374387386,15); (1374299255,15); (1374211129,15); (1374123007,15); (1374034890,15); (1373946777,15); (1373858669,15);
(1373770565,15); (1373682465,15); (1373594370,15); (1373506279,15); (1373418193,15); (1373330111,15); (1373242033,15); (1373153960,15);
(1373065891,15); (1372977827,15); (1372889767,15); (1372801711,15); (1372713660,15); (1372625613,15); (1372537571,15); (1372449533,15);
(1372361499,15); (1372273470,15); (1372185446,15); (1372097425,15); (1372009409,15); (1371921398,15); (1371833391,15); (1371745388,15);
(1371657390,15); (1371569396,15); (1371481406,15); (1371393421,15); (1371305440,15); (1371217464,15); (1371129492,15); (1371041525,15);
(1370953561,15); (1370865603,15); (1370777648,15); (1370689698,15); (1370601753,15); (1370513812,15); (1370425875,15); (1370337943,15);
(1370250015,15); (1370162091,15); (1370074172,15); (1369986257,15); (1369898347,15); (1369810441,15); (1369722539,15); (1369634642,15);
(1369546749,15); (1369458861,15); (1369370977,15); (1369283097,15); (1369195222,15); (1369107351,15); (1369019485,15); (1368931623,15);
(1368843765,15); (1368755912,15); (1368668063,15); (1368580218,15); (1368492378,15); (1368404542,15); (1368316711,15); (1368228884,15);
(1368141062,15); (1368053243,15); (1367965430,15); (1367877620,15); (1367789815,15); (1367702015,15); (1367614218,15); (1367526427,15);
(1367438639,15); (1367350856,15); (1367263077,15); (1367175303,15); (1367087533,15); (1366999768,15); (1366912006,15); (1366824250,15);
(1366736497,15); (1366648749,15); (1366561006,15); (1366473266,15); (1366385531,15); (1366297801,15); (1366210075,15); (1366122353,15);
(1366034636,15); (1365946923,15); (1365859214,15); (1365771510,15); (1365683810,15); (1365596115,15); (1365508424,15); (1365420737,15);
(1365333055,15); (1365245377,15); (1365157703,15); (1365070034,15); (1364982369,15); (1364894709,15); (1364807053,15); (1364719401,15);
(1364631754,15); (1364544111,15); (1364456472,15); (1364368838,15); (1364281208,15); (1364193583,15); (1364105962,15); (1364018345,15);
(1363930733,15); (1363843125,15); (1363755521,15); (1363667922,15); (1363580327,15); (1363492737,15); (1363405150,15); (1363317569,15);
(1363229991,15); (1363142418,15); (1363054850,15); (1362967286,15); (1362879726,15); (1362792170,15); (1362704619,15); (1362617072,15);
(1362529530,15); (1362441992,15); (1362354458,15); (1362266929,15); (1362179404,15); (1362091883,15); (1362004367,15); (1361916855,15);
(1361829348,15); (1361741844,15); (1361654346,15); (1361566851,15); (1361479361,15); (1361391876,15); (1361304394,15); (1361216917,15);
(1361129445,15); (1361041976,15); (1360954513,15); (1360867053,15); (1360779598,15); (1360692147,15); (1360604701,15); (1360517259,15);
(1360429821,15); (1360342388,15); (1360254959,15); (1360167534,15); (1360080114,15); (1359992698,15); (1359905286,15); (1359817879,15);
(1359730476,15); (1359643078,15); (1359555684,15); (1359468294,15); (1359380908,15); (1359293527,15); (1359206151,15); (1359118778,15);
(1359031410,15); (1358944047,15); (1358856687,15); (1358769332,15); (1358681982,15); (1358594635,15); (1358507294,15); (1358419956,15);
(1358332623,15); (1358245294,15); (1358157969,15); (1358070649,15); (1357983334,15); (1357896022,15); (1357808715,15); (1357721412,15);
(1357634114,15); (1357546820,15); (1357459530,15); (1357372245,15); (1357284964,15); (1357197687,15); (1357110415,15); (1357023147,15);
(1356935883,15); (1356848624,15); (1356761369,15); (1356674118,15); (1356586872,15); (1356499630,15); (1356412393,15); (1356325160,15);
(1356237931,15); (1356150706,15); (1356063486,15); (1355976270,15); (1355889059,15); (1355801852,15); (1355714649,15); (1355627450,15);
(1355540256,15); (1355453066,15); (1355365881,15); (1355278700,15); (1355191523,15); (1355104351,15); (1355017183,15); (1354930019,15);
(1354842859,15); (1354755704,15); (1354668554,15); (1354581407,15); (1354494265,15); (1354407127,15); (1354319994,15); (1354232865,15);
(1354145740,15); (1354058620,15); (1353971504,15); (1353884392,15); (1353797285,15); (1353710182,15); (1353623083,15); (1353535989,15);
(1353448899,15); (1353361813,15); (1353274732,15); (1353187655,15); (1353100582,15); (1353013513,15); (1352926449,15); (1352839390,15);
(1352752334,15); (1352665283,15); (1352578236,15); (1352491194,15); (1352404156,15); (1352317122,15); (1352230093,15); (1352143068,15);
(1352056047,15); (1351969031,15); (1351882019,15); (1351795011,15); (1351708007,15); (1351621008,15); (1351534013,15); (1351447023,15);
(1351360037,15); (1351273055,15); (1351186077,15); (1351099104,15); (1351012135,15); (1350925171,15); (1350838211,15); (1350751255,15);
(1350664303,15); (1350577356,15); (1350490413,15); (1350403475,15); (1350316540,15); (1350229610,15); (1350142685,15); (1350055763,15);
(1349968846,15); (1349881934,15); (1349795025,15); (1349708121,15); (1349621222,15); (1349534326,15); (1349447435,15); (1349360548,15);
(1349273666,15); (1349186788,15); (1349099914,15); (1349013045,15); (1348926179,15); (1348839319,15); (1348752462,15); (1348665610,15);
(1348578762,15); (1348491918,15); (1348405079,15); (1348318244,15); (1348231413,15); (1348144587,15); (1348057765,15); (1347970947,15);
(1347884134,15); (1347797325,15); (1347710520,15); (1347623720,15); (1347536924,15); (1347450132,15); (1347363344,15); (1347276561,15);
(1347189782,15); (1347103007,15); (1347016237,15); (1346929471,15); (1346842710,15); (1346755952,15); (1346669199,15); (1346582450,15);
(1346495706,15); (1346408966,15); (1346322230,15); (1346235498,15); (1346148771,15); (1346062048,15); (1345975330,15); (1345888615,15);
(1345801905,15); (1345715200,15); (1345628498,15); (1345541801,15); (1345455108,15); (1345368420,15); (1345281736,15); (1345195056,15);
(1345108380,15); (1345021709,15); (1344935042,15); (1344848379,15); (1344761721,15); (1344675067,15); (1344588417,15); (1344501772,15);
(1344415131,15); (1344328494,15); (1344241861,15); (1344155233,15); (1344068609,15); (1343981989,15); (1343895374,15); (1343808763,15);
(1343722156,15); (1343635554,15); (1343548955,15); (1343462362,15); (1343375772,15); (1343289187,15); (1343202606,15); (1343116029,15);
(1343029457,15); (1342942888,15); (1342856325,15); (1342769765,15); (1342683210,15); (1342596659,15); (1342510112,15); (1342423570,15);
(1342337032,15); (1342250498,15); (1342163969,15); (1342077443,15); (1341990922,15); (1341904406,15); (1341817894,15); (1341731385,15);
(1341644882,15); (1341558382,15); (1341471887,15); (1341385396,15); (1341298910,15); (1341212427,15); (1341125949,15); (1341039476,15);
(1340953006,15); (1340866541,15); (1340780080,15); (1340693624,15); (1340607171,15); (1340520723,15); (1340434280,15); (1340347840,15);
(1340261405,15); (1340174974,15); (1340088547,15); (1340002125,15); (1339915707,15); (1339829293,15); (1339742884,15); (1339656479,15);
(1339570078,15); (1339483681,15); (1339397289,15); (1339310901,15); (1339224517,15); (1339138138,15); (1339051762,15); (1338965391,15);
(1338879025,15); (1338792662,15); (1338706304,15); (1338619951,15); (1338533601,15); (1338447256,15); (1338360915,15); (1338274578,15);
(1338188246,15); (1338101917,15); (1338015594,15); (1337929274,15); (1337842959,15); (1337756648,15); (1337670341,15); (1337584038,15);
(1337497740,15); (1337411446,15); (1337325156,15); (1337238871,15); (1337152590,15); (1337066313,15); (1336980040,15); (1336893772,15);
(1336807508,15); (1336721248,15); (1336634993,15); (1336548742,15); (1336462495,15); (1336376252,15); (1336290013,15); (1336203779,15);
(1336117549,15); (1336031324,15); (1335945102,15); (1335858885,15); (1335772673,15); (1335686464,15); (1335600260,15); (1335514060,15);
(1335427864,15); (1335341672,15); (1335255485,15); (1335169302,15); (1335083124,15); (1334996949,15); (1334910779,15); (1334824613,15);
(1334738452,15); (1334652294,15); (1334566141,15); (1334479992,15); (1334393848,15); (1334307707,15); (1334221571,15); (1334135440,15);
(1334049312,15); (1333963189,15); (1333877070,15); (1333790955,15); (1333704845,15); (1333618738,15); (1333532636,15); (1333446539,15);
(1333360445,15); (1333274356,15); (1333188271,15); (1333102190,15); (1333016114,15); (1332930042,15); (1332843974,15); (1332757910,15);
(1332671851,15); (1332585796,15); (1332499745,15); (1332413698,15); (1332327656,15); (1332241618,15); (1332155584,15); (1332069554,15);
(1331983529,15); (1331897508,15); (1331811491,15); (1331725478,15); (1331639470,15); (1331553466,15); (1331467466,15); (1331381471,15);
(1331295479,15); (1331209492,15); (1331123509,15); (1331037531,15); (1330951557,15); (1330865586,15); (1330779621,15); (1330693659,15);
(1330607702,15); (1330521749,15); (1330435800,15); (1330349855,15); (1330263915,15); (1330177979,15); (1330092047,15); (1330006119,15);
(1329920196,15); (1329834277,15); (1329748362,15); (1329662451,15); (1329576545,15); (1329490643,15); (1329404745,15); (1329318851,15);
(1329232962,15); (1329147077,15); (1329061196,15); (1328975319,15); (1328889447,15); (1328803579,15); (1328717715,15); (1328631855,15);
(1328546000,15); (1328460148,15); (1328374302,15); (1328288459,15); (1328202620,15); (1328116786,15); (1328030956,15); (1327945130,15);
(1327859309,15); (1327773491,15); (1327687678,15); (1327601870,15); (1327516065,15); (1327430265,15); (1327344469,15); (1327258677,15);
(1327172889,15); (1327087106,15); (1327001326,15); (1326915552,15); (1326829781,15); (1326744014,15); (1326658252,15); (1326572494,15);
(1326486740,15); (1326400991,15); (1326315246,15); (1326229505,15); (1326143768,15); (1326058035,15); (1325972307,15); (1325886583,15);
(1325800863,15); (1325715147,15); (1325629436,15); (1325543728,15); (1325458025,15); (1325372327,15); (1325286632,15); (1325200942,15);
(1325115256,15); (1325029574,15); (1324943896,15); (1324858223,15); (1324772554,15); (1324686889,15); (1324601228,15); (1324515572,15);
(1324429920,15); (1324344272,15); (1324258628,15); (1324172988,15); (1324087353,15); (1324001722,15); (1323916095,15); (1323830472,15);
(1323744854,15); (1323659240,15); (1323573630,15); (1323488024,15); (1323402422,15); (1323316825,15); (1323231232,15); (1323145643,15);
(1323060058,15); (1322974478,15); (1322888902,15); (1322803330,15); (1322717762,15); (1322632198,15); (1322546639,15); (1322461084,15);
(1322375533,15); (1322289986,15); (1322204444,15); (1322118905,15); (1322033371,15); (1321947842,15); (1321862316,15); (1321776795,15);
(1321691277,15); (1321605764,15); (1321520256,15); (1321434751,15); (1321349251,15); (1321263755,15); (1321178263,15); (1321092775,15);
(1321007292,15); (1320921813,15); (1320836338,15); (1320750867,15); (1320665400,15); (1320579938,15); (1320494480,15); (1320409026,15);
(1320323576,15); (1320238130,15); (1320152689,15); (1320067252,15); (1319981819,15); (1319896390,15); (1319810966,15); (1319725546,15);
(1319640129,15); (1319554718,15); (1319469310,15); (1319383907,15); (1319298507,15); (1319213112,15); (1319127721,15); (1319042335,15);
(1318956952,15); (1318871574,15); (1318786200,15); (1318700830,15); (1318615465,15); (1318530103,15); (1318444746,15); (1318359393,15);
(1318274044,15); (1318188700,15); (1318103360,15); (1318018023,15); (1317932691,15); (1317847364,15); (1317762040,15); (1317676721,15);
(1317591406,15); (1317506095,15); (1317420788,15); (1317335485,15); (1317250187,15); (1317164893,15); (1317079603,15); (1316994317,15);
(1316909036,15); (1316823758,15); (1316738485,15); (1316653216,15); (1316567951,15); (1316482691,15); (1316397434,15); (1316312182,15);
(1316226934,15); (1316141690,15); (1316056451,15); (1315971215,15); (1315885984,15); (1315800757,15); (1315715534,15); (1315630316,15);
(1315545101,15); (1315459891,15); (1315374685,15); (1315289483,15); (1315204286,15); (1315119092,15); (1315033903,15); (1314948718,15);
(1314863537,15); (1314778360,15); (1314693188,15); (1314608020,15); (1314522855,15); (1314437695,15); (1314352540,15); (1314267388,15);
(1314182241,15); (1314097098,15); (1314011959,15); (1313926824,15); (1313841693,15); (1313756567,15); (1313671445,15); (1313586327,15);
(1313501213,15); (1313416103,15); (1313330998,15); (1313245896,15); (1313160799,15); (1313075706,15); (1312990617,15); (1312905533,15);
(1312820453,15); (1312735376,15); (1312650304,15); (1312565236,15); (1312480173,15); (1312395113,15); (1312310058,15); (1312225007,15);
(1312139960,15); (1312054917,15); (1311969879,15); (1311884844,15); (1311799814,15); (1311714788,15); (1311629766,15); (1311544749,15);
(1311459735,15); (1311374726,15); (1311289721,15); (1311204720,15); (1311119723,15); (1311034730,15); (1310949742,15); (1310864758,15);
(1310779778,15); (1310694802,15); (1310609830,15); (1310524863,15); (1310439899,15); (1310354940,15); (1310269985,15); (1310185034,15);
(1310100088,15); (1310015145,15); (1309930207,15); (1309845273,15); (1309760343,15); (1309675417,15); (1309590495,15); (1309505578,15);
(1309420665,15); (1309335756,15); (1309250851,15); (1309165950,15); (1309081053,15); (1308996161,15); (1308911273,15); (1308826388,15);
(1308741509,15); (1308656633,15); (1308571761,15); (1308486894,15); (1308402031,15); (1308317172,15); (1308232317,15); (1308147466,15);
(1308062619,15); (1307977777,15); (1307892939,15); (1307808105,15); (1307723275,15); (1307638449,15); (1307553627,15); (1307468810,15);
(1307383997,15); (1307299188,15); (1307214383,15); (1307129582,15); (1307044785,15); (1306959993,15); (1306875205,15); (1306790421,15);
(1306705641,15); (1306620865,15); (1306536093,15); (1306451326,15); (1306366562,15); (1306281803,15); (1306197048,15); (1306112298,15);
(1306027551,15); (1305942808,15); (1305858070,15); (1305773336,15); (1305688606,15); (1305603880,15); (1305519158,15); (1305434441,15);
(1305349727,15); (1305265018,15); (1305180313,15); (1305095612,15); (1305010915,15); (1304926223,15); (1304841534,15); (1304756850,15);
(1304672170,15); (1304587494,15); (1304502822,15); (1304418154,15); (1304333491,15); (1304248831,15); (1304164176,15); (1304079525,15);
(1303994878,15); (1303910235,15); (1303825597,15); (1303740962,15); (1303656332,15); (1303571706,15); (1303487084,15); (1303402466,15);
(1303317852,15); (1303233242,15); (1303148637,15); (1303064036,15); (1302979439,15); (1302894846,15); (1302810257,15); (1302725672,15);
(1302641092,15); (1302556515,15); (1302471943,15); (1302387375,15); (1302302811,15); (1302218251,15); (1302133695,15); (1302049144,15);
(1301964597,15); (1301880053,15); (1301795514,15); (1301710979,15); (1301626448,15); (1301541922,15); (1301457399,15); (1301372881,15);
(1301288367,15); (1301203857,15); (1301119351,15); (1301034849,15); (1300950351,15); (1300865858,15); (1300781368,15); (1300696883,15);
(1300612402,15); (1300527925,15); (1300443452,15); (1300358984,15); (1300274519,15); (1300190059,15); (1300105602,15); (1300021150,15);
(1299936702,15); (1299852258,15); (1299767819,15); (1299683383,15); (1299598952,15); (1299514524,15); (1299430101,15); (1299345682,15);
(1299261267,15); (1299176856,15); (1299092450,15); (1299008047,15); (1298923649,15); (1298839255,15); (1298754865,15); (1298670479,15);
(1298586097,15); (1298501719,15); (1298417345,15); (1298332976,15); (1298248611,15); (1298164250,15); (1298079893,15); (1297995540,15);
(1297911191,15); (1297826846,15); (1297742506,15); (1297658169,15); (1297573837,15); (1297489509,15); (1297405185,15); (1297320865,15);
(1297236549,15); (1297152238,15); (1297067930,15); (1296983627,15); (1296899327,15); (1296815032,15); (1296730741,15); (1296646454,15);
(1296562172,15); (1296477893,15); (1296393619,15); (1296309348,15); (1296225082,15); (1296140820,15); (1296056562,15); (1295972308,15);
(1295888058,15); (1295803813,15); (1295719571,15); (1295635334,15); (1295551100,15); (1295466871,15); (1295382646,15); (1295298425,15);
(1295214209,15); (1295129996,15); (1295045787,15); (1294961583,15); (1294877383,15); (1294793186,15); (1294708994,15); (1294624806,15);
(1294540623,15); (1294456443,15); (1294372267,15); (1294288096,15); (1294203928,15); (1294119765,15); (1294035606,15); (1293951451,15);
(1293867300,15); (1293783153,15); (1293699011,15); (1293614872,15); (1293530738,15); (1293446607,15); (1293362481,15); (1293278359,15);
(1293194241,15); (1293110127,15); (1293026017,15); (1292941912,15); (1292857810,15); (1292773713,15); (1292689620,15); (1292605530,15);
(1292521445,15); (1292437364,15); (1292353287,15); (1292269215,15); (1292185146,15); (1292101081,15); (1292017021,15); (1291932965,15);
(1291848913,15); (1291764864,15); (1291680820,15); (1291596781,15); (1291512745,15); (1291428713,15); (1291344685,15); (1291260662,15);
(1291176643,15); (1291092627,15); (1291008616,15); (1290924609,15); (1290840606,15); (1290756607,15); (1290672613,15); (1290588622,15);
(1290504636,15); (1290420653,15); (1290336675,15); (1290252701,15); (1290168731,15); (1290084764,15); (1290000803,15); (1289916845,15);
(1289832891,15); (1289748941,15); (1289664996,15); (1289581055,15); (1289497117,15); (1289413184,15); (1289329255,15); (1289245330,15);
(1289161409,15); (1289077492,15); (1288993580,15); (1288909671,15); (1288825766,15); (1288741866,15); (1288657970,15); (1288574077,15)].

(** entries 40960..43007 *)
Definition RECIPROCAL_20 : list (Z * Z) := [
(1288490189,15); (1288406305,15); (1288322425,15); (1288238549,15); (1288154678,15); (1288070810,15); (1287986947,15); (1287903087,15);
(1287819232,15); (1287735380,15); (1287651533,15); (1287567690,15); (1287483851,15); (1287400016,15); (1287316185,15); (1287232359,15);
(1287148536,15); (1287064718,15); (1286980903,15); (1286897093,15); (1286813287,15); (1286729484,15); (1286645686,15); (1286561892,15);
(1286478102,15); (1286394317,15); (1286310535,15); (1286226757,15); (1286142984,15); (1286059214,15); (1285975449,15); (1285891687,15);
(1285807930,15); (1285724177,15); (1285640428,15); (1285556683,15); (1285472942,15); (1285389206,15); (1285305473,15); (1285221744,15);
(1285138020,15); (1285054299,15); (1284970583,15); (1284886871,15); (1284803162,15); (1284719458,15); (1284635758,15); (1284552062,15);
(1284468371,15); (1284384683,15); (1284300999,15); (1284217319,15); (1284133644,15); (1284049972,15); (1283966305,15); (1283882642,15);
(1283798983,15); (1283715327,15); (1283631676,15); (1283548029,15); (1283464387,15); (1283380748,15); (1283297113,15); (1283213482,15);
(1283129856,15); (1283046233,15); (1282962615,15); (1282879000,15); (1282795390,15); (1282711784,15); (1282628182,15); (1282544584,15);
(1282460990,15); (1282377400,15); (1282293814,15); (1282210232,15); (1282126655,15); (1282043081,15); (1281959511,15); (1281875946,15);
(1281792385,15); (1281708827,15); (1281625274,15); (1281541725,15); (1281458180,15); (1281374639,15); (1281291102,15); (1281207569,15);
(1281124040,15); (1281040515,15); (1280956995,15); (1280873478,15); (1280789965,15); (1280706457,15); (1280622952,15); (1280539452,15);
(1280455956,15); (1280372464,15); (1280288976,15); (1280205491,15); (1280122011,15); (1280038535,15); (1279955064,15); (1279871596,15);
(1279788132,15); (1279704672,15); (1279621217,15); (1279537765,15); (1279454318,15); (1279370874,15); (1279287435,15); (1279204000,15);
(1279120568,15); (1279037141,15); (1278953718,15); (1278870299,15); (1278786884,15); (1278703473,15); (1278620066,15); (1278536663,15);
(1278453265,15); (1278369870,15); (1278286479,15); (1278203093,15); (1278119710,15); (1278036332,15); (1277952958,15); (1277869587,15);
(1277786221,15); (1277702859,15); (1277619501,15); (1277536147,15); (1277452796,15); (1277369450,15); (1277286109,15); (1277202771,15);
(1277119437,15); (1277036107,15); (1276952781,15); (1276869460,15); (1276786142,15); (1276702829,15); (1276619519,15); (1276536214,15);
(1276452912,15); (1276369615,15); (1276286322,15); (1276203033,15); (1276119747,15); (1276036466,15); (1275953189,15); (1275869916,15);
(1275786647,15); (1275703382,15); (1275620121,15); (1275536865,15); (1275453612,15); (1275370363,15); (1275287118,15); (1275203878,15);
(1275120641,15); (1275037409,15); (1274954180,15); (1274870956,15); (1274787736,15); (1274704519,15); (1274621307,15); (1274538099,15);
(1274454894,15); (1274371694,15); (1274288498,15); (1274205306,15); (1274122118,15); (1274038934,15); (1273955754,15); (1273872578,15);
(1273789407,15); (1273706239,15); (1273623075,15); (1273539915,15); (1273456760,15); (1273373608,15); (1273290461,15); (1273207317,15);
(1273124178,15); (1273041042,15); (1272957911,15); (1272874783,15); (1272791660,15); (1272708541,15); (1272625426,15); (1272542314,15);
(1272459207,15); (1272376104,15); (1272293005,15); (1272209910,15); (1272126819,15); (1272043732,15); (1271960649,15); (1271877570,15);
(1271794495,15); (1271711424,15); (1271628358,15); (1271545295,15); (1271462236,15); (1271379181,15); (1271296131,15); (1271213084,15);
(1271130042,15); (1271047003,15); (1270963969,15); (1270880938,15); (1270797912,15); (1270714889,15); (1270631871,15); (1270548857,15);
(1270465846,15); (1270382840,15); (1270299838,15); (1270216840,15); (1270133845,15); (1270050855,15); (1269967869,15); (1269884887,15);
(1269801909,15); (1269718935,15); (1269635965,15); (1269552999,15); (1269470037,15); (1269387079,15); (1269304125,15); (1269221175,15);
(1269138229,15); (1269055288,15); (1268972350,15); (1268889416,15); (1268806486,15); (1268723561,15); (1268640639,15); (1268557721,15);
(1268474808,15); (1268391898,15); (1268308993,15); (1268226091,15); (1268143193,15); (1268060300,15); (1267977410,15); (1267894525,15);
(1267811644,15); (1267728766,15); (1267645893,15); (1267563023,15); (1267480158,15); (1267397297,15); (1267314439,15); (1267231586,15);
(1267148737,15); (1267065892,15); (1266983050,15); (1266900213,15); (1266817380,15); (1266734551,15); (1266651726,15); (1266568905,15);
(1266486087,15); (1266403274,15); (1266320465,15); (1266237660,15); (1266154859,15); (1266072062,15); (1265989269,15); (1265906480,15);
(1265823695,15); (1265740914,15); (1265658137,15); (1265575364,15); (1265492595,15); (1265409831,15); (1265327070,15); (1265244313,15);
(1265161560,15); (1265078811,15); (1264996066,15); (1264913325,15); (1264830589,15); (1264747856,15); (1264665127,15); (1264582402,15);
(1264499682,15); (1264416965,15); (1264334252,15); (1264251543,15); (1264168839,15); (1264086138,15); (1264003441,15); (1263920748,15);
(1263838060,15); (1263755375,15); (1263672694,15); (1263590018,15); (1263507345,15); (1263424676,15); (1263342012,15); (1263259351,15);
(1263176695,15); (1263094042,15); (1263011393,15); (1262928749,15); (1262846108,15); (1262763472,15); (1262680839,15); (1262598210,15);
(1262515586,15); (1262432965,15); (1262350349,15); (1262267736,15); (1262185127,15); (1262102523,15); (1262019922,15); (1261937326,15);
(1261854733,15); (1261772145,15); (1261689560,15); (1261606980,15); (1261524403,15); (1261441830,15); (1261359262,15); (1261276697,15);
(1261194137,15); (1261111580,15); (1261029028,15); (1260946479,15); (1260863934,15); (1260781394,15); (1260698857,15); (1260616325,15);
(1260533796,15); (1260451272,15); (1260368751,15); (1260286234,15); (1260203722,15); (1260121213,15); (1260038709,15); (1259956208,15);
(1259873711,15); (1259791219,15); (1259708730,15); (1259626246,15); (1259543765,15); (1259461288,15); (1259378816,15); (1259296347,15);
(1259213882,15); (1259131422,15); (1259048965,15); (1258966512,15); (1258884064,15); (1258801619,15); (1258719178,15); (1258636742,15);
(1258554309,15); (1258471880,15); (1258389455,15); (1258307035,15); (1258224618,15); (1258142205,15); (1258059796,15); (1257977391,15);
(1257894991,15); (1257812594,15); (1257730201,15); (1257647812,15); (1257565427,15); (1257483046,15); (1257400669,15); (1257318297,15);
(1257235928,15); (1257153563,15); (1257071202,15); (1256988845,15); (1256906492,15); (1256824143,15); (1256741798,15); (1256659457,15);
(1256577120,15); (1256494787,15); (1256412457,15); (1256330132,15); (1256247811,15); (1256165494,15); (1256083181,15); (1256000872,15);
(1255918567,15); (1255836265,15); (1255753968,15); (1255671675,15); (1255589386,15); (1255507100,15); (1255424819,15); (1255342542,15);
(1255260268,15); (1255177999,15); (1255095733,15); (1255013472,15); (1254931215,15); (1254848961,15); (1254766712,15); (1254684466,15);
(1254602225,15); (1254519987,15); (1254437753,15); (1254355524,15); (1254273298,15); (1254191076,15); (1254108859,15); (1254026645,15);
(1253944435,15); (1253862230,15); (1253780028,15); (1253697830,15); (1253615636,15); (1253533446,15); (1253451260,15); (1253369078,15);
(1253286900,15); (1253204726,15); (1253122556,15); (1253040390,15); (1252958228,15); (1252876070,15); (1252793916,15); (1252711766,15);
(1252629620,15); (1252547477,15); (1252465339,15); (1252383205,15); (1252301075,15); (1252218948,15); (1252136826,15); (1252054707,15);
(1251972593,15); (1251890482,15); (1251808376,15); (1251726273,15); (1251644175,15); (1251562080,15); (1251479990,15); (1251397903,15);
(1251315820,15); (1251233741,15); (1251151667,15); (1251069596,15); (1250987529,15); (1250905466,15); (1250823407,15); (1250741352,15);
(1250659301,15); (1250577254,15); (1250495211,15); (1250413172,15); (1250331137,15); (1250249105,15); (1250167078,15); (1250085055,15);
(1250003035,15); (1249921020,15); (1249839009,15); (1249757001,15); (1249674998,15); (1249592998,15); (1249511003,15); (1249429011,15);
(1249347023,15); (1249265040,15); (1249183060,15); (1249101084,15); (1249019112,15); (1248937144,15); (1248855181,15); (1248773221,15);
(1248691265,15); (1248609312,15); (1248527364,15); (1248445420,15); (1248363480,15); (1248281544,15); (1248199612,15); (1248117683,15);
(1248035759,15); (1247953838,15); (1247871922,15); (1247790009,15); (1247708101,15); (1247626196,15); (1247544296,15); (1247462399,15);
(1247380506,15); (1247298617,15); (1247216733,15); (1247134852,15); (1247052975,15); (1246971102,15); (1246889233,15); (1246807368,15);
(1246725506,15); (1246643649,15); (1246561796,15); (1246479947,15); (1246398101,15); (1246316260,15); (1246234422,15); (1246152589,15);
(1246070759,15); (1245988934,15); (1245907112,15); (1245825294,15); (1245743480,15); (1245661671,15); (1245579865,15); (1245498063,15);
(1245416265,15); (1245334471,15); (1245252680,15); (1245170894,15); (1245089112,15); (1245007334,15); (1244925559,15); (1244843789,15);
(1244762022,15); (1244680260,15); (1244598501,15); (1244516747,15); (1244434996,15); (1244353249,15); (1244271506,15); (1244189767,15);
(1244108033,15); (1244026302,15); (1243944574,15); (1243862851,15); (1243781132,15); (1243699417,15); (1243617706,15); (1243535998,15);
(1243454295,15); (1243372595,15); (1243290900,15); (1243209208,15); (1243127520,15); (1243045837,15); (1242964157,15); (1242882481,15);
(1242800809,15); (1242719141,15); (1242637477,15); (1242555817,15); (1242474160,15); (1242392508,15); (1242310860,15); (1242229215,15);
(1242147575,15); (1242065938,15); (1241984306,15); (1241902677,15); (1241821052,15); (1241739431,15); (1241657815,15); (1241576202,15);
(1241494593,15); (1241412988,15); (1241331386,15); (1241249789,15); (1241168196,15); (1241086606,15); (1241005021,15); (1240923439,15);
(1240841862,15); (1240760288,15); (1240678718,15); (1240597153,15); (1240515591,15); (1240434033,15); (1240352479,15); (1240270929,15);
(1240189382,15); (1240107840,15); (1240026302,15); (1239944767,15); (1239863237,15); (1239781710,15); (1239700188,15); (1239618669,15);
(1239537154,15); (1239455643,15); (1239374136,15); (1239292633,15); (1239211134,15); (1239129639,15); (1239048148,15); (1238966661,15);
(1238885177,15); (1238803698,15); (1238722222,15); (1238640751,15); (1238559283,15); (1238477819,15); (1238396359,15); (1238314903,15);
(1238233451,15); (1238152003,15); (1238070559,15); (1237989118,15); (1237907682,15); (1237826250,15); (1237744821,15); (1237663397,15);
(1237581976,15); (1237500559,15); (1237419146,15); (1237337737,15); (1237256332,15); (1237174931,15); (1237093534,15); (1237012141,15);
(1236930751,15); (1236849366,15); (1236767984,15); (1236686607,15); (1236605233,15); (1236523863,15); (1236442497,15); (1236361135,15);
(1236279777,15); (1236198423,15); (1236117073,15); (1236035726,15); (1235954384,15); (1235873045,15); (1235791711,15); (1235710380,15);
(1235629053,15); (1235547730,15); (1235466412,15); (1235385096,15); (1235303785,15); (1235222478,15); (1235141175,15); (1235059875,15);
(1234978580,15); (1234897288,15); (1234816001,15); (1234734717,15); (1234653437,15); (1234572161,15); (1234490889,15); (1234409621,15);
(1234328356,15); (1234247096,15); (1234165840,15); (1234084587,15); (1234003338,15); (1233922094,15); (1233840853,15); (1233759616,15);
(1233678383,15); (1233597154,15); (1233515929,15); (1233434707,15); (1233353490,15); (1233272276,15); (1233191067,15); (1233109861,15);
(1233028659,15); (1232947461,15); (1232866267,15); (1232785077,15); (1232703891,15); (1232622709,15); (1232541530,15); (1232460356,15);
(1232379185,15); (1232298019,15); (1232216856,15); (1232135697,15); (1232054542,15); (1231973391,15); (1231892243,15); (1231811100,15);
(1231729961,15); (1231648825,15); (1231567694,15); (1231486566,15); (1231405442,15); (1231324322,15); (1231243206,15); (1231162094,15);
(1231080986,15); (1230999881,15); (1230918781,15); (1230837684,15); (1230756591,15); (1230675503,15); (1230594418,15); (1230513337,15);
(1230432260,15); (1230351186,15); (1230270117,15); (1230189052,15); (1230107990,15); (1230026932,15); (1229945879,15); (1229864829,15);
(1229783783,15); (1229702741,15); (1229621702,15); (1229540668,15); (1229459638,15); (1229378611,15); (1229297589,15); (1229216570,15);
(1229135555,15); (1229054544,15); (1228973537,15); (1228892534,15); (1228811534,15); (1228730539,15); (1228649547,15); (1228568560,15);
(1228487576,15); (1228406596,15); (1228325620,15); (1228244648,15); (1228163679,15); (1228082715,15); (1228001755,15); (1227920798,15);
(1227839845,15); (1227758896,15); (1227677952,15); (1227597010,15); (1227516073,15); (1227435140,15); (1227354211,15); (1227273285,15);
(1227192363,15); (1227111446,15); (1227030532,15); (1226949622,15); (1226868715,15); (1226787813,15); (1226706915,15); (1226626020,15);
(1226545130,15); (1226464243,15); (1226383360,15); (1226302481,15); (1226221606,15); (1226140735,15); (1226059867,15); (1225979004,15);
(1225898144,15); (1225817289,15); (1225736437,15); (1225655589,15); (1225574745,15); (1225493904,15); (1225413068,15); (1225332236,15);
(1225251407,15); (1225170582,15); (1225089761,15); (1225008944,15); (1224928131,15); (1224847322,15); (1224766517,15); (1224685715,15);
(1224604918,15); (1224524124,15); (1224443334,15); (1224362548,15); (1224281766,15); (1224200988,15); (1224120213,15); (1224039443,15);
(1223958676,15); (1223877913,15); (1223797154,15); (1223716399,15); (1223635648,15); (1223554901,15); (1223474157,15); (1223393418,15);
(1223312682,15); (1223231950,15); (1223151222,15); (1223070498,15); (1222989778,15); (1222909062,15); (1222828349,15); (1222747640,15);
(1222666936,15); (1222586235,15); (1222505538,15); (1222424845,15); (1222344155,15); (1222263470,15); (1222182788,15); (1222102111,15);
(1222021437,15); (1221940767,15); (1221860101,15); (1221779438,15); (1221698780,15); (1221618125,15); (1221537475,15); (1221456828,15);
(1221376185,15); (1221295546,15); (1221214910,15); (1221134279,15); (1221053652,15); (1220973028,15); (1220892408,15); (1220811792,15);
(1220731180,15); (1220650572,15); (1220569967,15); (1220489367,15); (1220408770,15); (1220328178,15); (1220247589,15); (1220167003,15);
(1220086422,15); (1220005845,15); (1219925271,15); (1219844702,15); (1219764136,15); (1219683574,15); (1219603016,15); (1219522462,15);
(1219441911,15); (1219361365,15); (1219280822,15); (1219200283,15); (1219119748,15); (1219039217,15); (1218958690,15); (1218878166,15);
(1218797647,15); (1218717131,15); (1218636619,15); (1218556111,15); (1218475607,15); (1218395107,15); (1218314610,15); (1218234118,15);
(1218153629,15); (1218073144,15); (1217992663,15); (1217912186,15); (1217831713,15); (1217751243,15); (1217670777,15); (1217590316,15);
(1217509858,15); (1217429403,15); (1217348953,15); (1217268507,15); (1217188064,15); (1217107625,15); (1217027191,15); (1216946760,15);
(1216866332,15); (1216785909,15); (1216705489,15); (1216625074,15); (1216544662,15); (1216464254,15); (1216383850,15); (1216303450,15);
(1216223053,15); (1216142661,15); (1216062272,15); (1215981887,15); (1215901506,15); (1215821129,15); (1215740755,15); (1215660386,15);
(1215580020,15); (1215499658,15); (1215419300,15); (1215338946,15); (1215258596,15); (1215178249,15); (1215097906,15); (1215017568,15);
(1214937233,15); (1214856901,15); (1214776574,15); (1214696251,15); (1214615931,15); (1214535615,15); (1214455303,15); (1214374995,15);
(1214294691,15); (1214214390,15); (1214134094,15); (1214053801,15); (1213973512,15); (1213893227,15); (1213812946,15); (1213732668,15);
(1213652395,15); (1213572125,15); (1213491859,15); (1213411597,15); (1213331339,15); (1213251084,15); (1213170834,15); (1213090587,15);
(1213010344,15); (1212930105,15); (1212849869,15); (1212769638,15); (1212689410,15); (1212609187,15); (1212528967,15); (1212448751,15);
(1212368538,15); (1212288330,15); (1212208125,15); (1212127924,15); (1212047727,15); (1211967534,15); (1211887345,15); (1211807159,15);
(1211726978,15); (1211646800,15); (1211566626,15); (1211486456,15); (1211406289,15); (1211326127,15); (1211245968,15); (1211165813,15);
(1211085662,15); (1211005515,15); (1210925372,15); (1210845232,15); (1210765096,15); (1210684964,15); (1210604836,15); (1210524712,15);
(1210444592,15); (1210364475,15); (1210284362,15); (1210204253,15); (1210124148,15); (1210044047,15); (1209963949,15); (1209883855,15);
(1209803766,15); (1209723680,15); (1209643597,15); (1209563519,15); (1209483444,15); (1209403373,15); (1209323307,15); (1209243243,15);
(1209163184,15); (1209083129,15); (1209003077,15); (1208923029,15); (1208842985,15); (1208762945,15); (1208682908,15); (1208602876,15);
(1208522847,15); (1208442822,15); (1208362801,15); (1208282784,15); (1208202770,15); (1208122760,15); (1208042755,15); (1207962753,15);
(1207882754,15); (1207802760,15); (1207722769,15); (1207642782,15); (1207562799,15); (1207482820,15); (1207402845,15); (1207322873,15);
(1207242906,15); (1207162942,15); (1207082982,15); (1207003025,15); (1206923073,15); (1206843124,15); (1206763179,15); (1206683238,15);
(1206603301,15); (1206523367,15); (1206443438,15); (1206363512,15); (1206283590,15); (1206203672,15); (1206123757,15); (1206043847,15);
(1205963940,15); (1205884037,15); (1205804138,15); (1205724243,15); (1205644351,15); (1205564463,15); (1205484579,15); (1205404699,15);
(1205324823,15); (1205244950,15); (1205165082,15); (1205085217,15); (1205005356,15); (1204925498,15); (1204845645,15); (1204765795,15);
(1204685949,15); (1204606107,15); (1204526269,15); (1204446435,15); (1204366604,15); (1204286777,15); (1204206954,15); (1204127135,15);
(1204047319,15); (1203967508,15); (1203887700,15); (1203807896,15); (1203728095,15); (1203648299,15); (1203568506,15); (1203488717,15);
(1203408932,15); (1203329151,15); (1203249374,15); (1203169600,15); (1203089830,15); (1203010064,15); (1202930302,15); (1202850543,15);
(1202770789,15); (1202691038,15); (1202611291,15); (1202531547,15); (1202451808,15); (1202372072,15); (1202292340,15); (1202212612,15);
(1202132888,15); (1202053167,15); (1201973451,15); (1201893738,15); (1201814029,15); (1201734323,15); (1201654622,15); (1201574924,15);
(1201495230,15); (1201415540,15); (1201335854,15); (1201256171,15); (1201176492,15); (1201096817,15); (1201017146,15); (1200937479,15);
(1200857815,15); (1200778155,15); (1200698499,15); (1200618847,15); (1200539199,15); (1200459554,15); (1200379913,15); (1200300276,15);
(1200220643,15); (1200141013,15); (1200061387,15); (1199981765,15); (1199902147,15); (1199822533,15); (1199742922,15); (1199663316,15);
(1199583713,15); (1199504113,15); (1199424518,15); (1199344926,15); (1199265338,15); (1199185754,15); (1199106174,15); (1199026598,15);
(1198947025,15); (1198867456,15); (1198787891,15); (1198708329,15); (1198628772,15); (1198549218,15); (1198469668,15); (1198390122,15);
(1198310579,15); (1198231041,15); (1198151506,15); (1198071975,15); (1197992447,15); (1197912924,15); (1197833404,15); (1197753888,15);
(1197674376,15); (1197594867,15); (1197515363,15); (1197435862,15); (1197356365,15); (1197276871,15); (1197197382,15); (1197117896,15);
(1197038414,15); (1196958936,15); (1196879462,15); (1196799991,15); (1196720524,15); (1196641061,15); (1196561602,15); (1196482146,15);
(1196402694,15); (1196323246,15); (1196243802,15); (1196164362,15); (1196084925,15); (1196005492,15); (1195926063,15); (1195846638,15);
(1195767216,15); (1195687798,15); (1195608384,15); (1195528974,15); (1195449568,15); (1195370165,15); (1195290766,15); (1195211371,15);
(1195131979,15); (1195052592,15); (1194973208,15); (1194893828,15); (1194814452,15); (1194735079,15); (1194655710,15); (1194576345,15);
(1194496984,15); (1194417627,15); (1194338273,15); (1194258923,15); (1194179577,15); (1194100234,15); (1194020896,15); (1193941561,15);
(1193862230,15); (1193782903,15); (1193703579,15); (1193624259,15); (1193544943,15); (1193465631,15); (1193386322,15); (1193307018,15);
(1193227717,15); (1193148420,15); (1193069126,15); (1192989837,15); (1192910551,15); (1192831268,15); (1192751990,15); (1192672716,15);
(1192593445,15); (1192514178,15); (1192434914,15); (1192355655,15); (1192276399,15); (1192197147,15); (1192117899,15); (1192038654,15);
(1191959413,15); (1191880176,15); (1191800943,15); (1191721714,15); (1191642488,15); (1191563266,15); (1191484048,15); (1191404833,15);
(1191325623,15); (1191246416,15); (1191167213,15); (1191088013,15); (1191008818,15); (1190929626,15); (1190850437,15); (1190771253,15);
(1190692073,15); (1190612896,15); (1190533723,15); (1190454553,15); (1190375388,15); (1190296226,15); (1190217068,15); (1190137913,15);
(1190058763,15); (1189979616,15); (1189900473,15); (1189821334,15); (1189742198,15); (1189663066,15); (1189583938,15); (1189504814,15);
(1189425693,15); (1189346576,15); (1189267463,15); (1189188354,15); (1189109249,15); (1189030147,15); (1188951049,15); (1188871954,15);
(1188792864,15); (1188713777,15); (1188634694,15); (1188555615,15); (1188476539,15); (1188397467,15); (1188318399,15); (1188239335,15);
(1188160274,15); (1188081218,15); (1188002165,15); (1187923115,15); (1187844070,15); (1187765028,15); (1187685990,15); (1187606955,15);
(1187527925,15); (1187448898,15); (1187369875,15); (1187290856,15); (1187211840,15); (1187132828,15); (1187053820,15); (1186974816,15);
(1186895815,15); (1186816818,15); (1186737825,15); (1186658836,15); (1186579850,15); (1186500868,15); (1186421890,15); (1186342915,15);
(1186263945,15); (1186184978,15); (1186106015,15); (1186027055,15); (1185948099,15); (1185869147,15); (1185790199,15); (1185711255,15);
(1185632314,15); (1185553377,15); (1185474444,15); (1185395514,15); (1185316588,15); (1185237666,15); (1185158748,15); (1185079833,15);
(1185000922,15); (1184922015,15); (1184843112,15); (1184764212,15); (1184685316,15); (1184606424,15); (1184527536,15); (1184448651,15);
(1184369770,15); (1184290893,15); (1184212019,15); (1184133149,15); (1184054283,15); (1183975421,15); (1183896563,15); (1183817708,15);
(1183738857,15); (1183660009,15); (1183581166,15); (1183502326,15); (1183423490,15); (1183344657,15); (1183265828,15); (1183187003,15);
(1183108182,15); (1183029365,15); (1182950551,15); (1182871741,15); (1182792935,15); (1182714132,15); (1182635333,15); (1182556538,15);
(1182477746,15); (1182398959,15); (1182320175,15); (1182241395,15); (1182162618,15); (1182083845,15); (1182005076,15); (1181926311,15);
(1181847549,15); (1181768792,15); (1181690037,15); (1181611287,15); (1181532540,15); (1181453797,15); (1181375058,15); (1181296323,15);
(1181217591,15); (1181138863,15); (1181060138,15); (1180981418,15); (1180902701,15); (1180823988,15); (1180745278,15); (1180666573,15);
(1180587871,15); (1180509172,15); (1180430478,15); (1180351787,15); (1180273100,15); (1180194416,15); (1180115737,15); (1180037061,15);
(1179958389,15); (1179879720,15); (1179801055,15); (1179722394,15); (1179643737,15); (1179565083,15); (1179486433,15); (1179407787,15);
(1179329145,15); (1179250506,15); (1179171871,15); (1179093239,15); (1179014612,15); (1178935988,15); (1178857368,15); (1178778751,15);
(1178700139,15); (1178621530,15); (1178542924,15); (1178464323,15); (1178385725,15); (1178307131,15); (1178228540,15); (1178149953,15);
(1178071370,15); (1177992791,15); (1177914215,15); (1177835644,15); (1177757075,15); (1177678511,15); (1177599950,15); (1177521393,15);
(1177442840,15); (1177364290,15); (1177285744,15); (1177207202,15); (1177128664,15); (1177050129,15); (1176971598,15); (1176893070,15);
(1176814547,15); (1176736027,15); (1176657511,15); (1176578998,15); (1176500489,15); (1176421984,15); (1176343483,15); (1176264985,15);
(1176186491,15); (1176108001,15); (1176029514,15); (1175951032,15); (1175872552,15); (1175794077,15); (1175715605,15); (1175637137,15);
(1175558673,15); (1175480212,15); (1175401755,15); (1175323302,15); (1175244853,15); (1175166407,15); (1175087965,15); (1175009526,15);
(1174931092,15); (1174852661,15); (1174774234,15); (1174695810,15); (1174617390,15); (1174538974,15); (1174460561,15); (1174382153,15);
(1174303748,15); (1174225346,15); (1174146949,15); (1174068555,15); (1173990164,15); (1173911778,15); (1173833395,15); (1173755016,15);
(1173676640,15); (1173598269,15); (1173519900,15); (1173441536,15); (1173363175,15); (1173284818,15); (1173206465,15); (1173128116,15);
(1173049770,15); (1172971428,15); (1172893089,15); (1172814754,15); (1172736423,15); (1172658096,15); (1172579772,15); (1172501452,15);
(1172423136,15); (1172344823,15); (1172266514,15); (1172188209,15); (1172109907,15); (1172031610,15); (1171953315,15); (1171875025,15);
(1171796738,15); (1171718455,15); (1171640176,15); (1171561900,15); (1171483628,15); (1171405360,15); (1171327095,15); (1171248834,15);
(1171170577,15); (1171092324,15); (1171014074,15); (1170935828,15); (1170857585,15); (1170779346,15); (1170701111,15); (1170622880,15);
(1170544652,15); (1170466428,15); (1170388208,15); (1170309991,15); (1170231778,15); (1170153569,15); (1170075363,15); (1169997161,15);
(1169918963,15); (1169840769,15); (1169762578,15); (1169684391,15); (1169606207,15); (1169528027,15); (1169449851,15); (1169371679,15);
(1169293510,15); (1169215345,15); (1169137184,15); (1169059026,15); (1168980872,15); (1168902722,15); (1168824575,15); (1168746432,15);
(1168668293,15); (1168590157,15); (1168512026,15); (1168433897,15); (1168355773,15); (1168277652,15); (1168199535,15); (1168121421,15);
(1168043311,15); (1167965205,15); (1167887103,15); (1167809004,15); (1167730909,15); (1167652818,15); (1167574730,15); (1167496646,15);
(1167418566,15); (1167340489,15); (1167262416,15); (1167184346,15); (1167106281,15); (1167028219,15); (1166950161,15); (1166872106,15);
(1166794055,15); (1166716008,15); (1166637964,15); (1166559924,15); (1166481888,15); (1166403855,15); (1166325826,15); (1166247801,15);
(1166169780,15); (1166091762,15); (1166013748,15); (1165935737,15); (1165857730,15); (1165779727,15); (1165701727,15); (1165623732,15);
(1165545739,15); (1165467751,15); (1165389766,15); (1165311785,15); (1165233807,15); (1165155834,15); (1165077863,15); (1164999897,15);
(1164921934,15); (1164843975,15); (1164766020,15); (1164688068,15); (1164610120,15); (1164532175,15); (1164454234,15); (1164376297,15);
(1164298364,15); (1164220434,15); (1164142508,15); (1164064586,15); (1163986667,15); (1163908752,15); (1163830840,15); (1163752932,15);
(1163675028,15); (1163597128,15); (1163519231,15); (1163441338,15); (1163363448,15); (1163285563,15); (1163207681,15); (1163129802,15);
(1163051927,15); (1162974056,15); (1162896189,15); (1162818325,15); (1162740465,15); (1162662608,15); (1162584755,15); (1162506906,15);
(1162429061,15); (1162351219,15); (1162273381,15); (1162195546,15); (1162117715,15); (1162039888,15); (1161962065,15); (1161884245,15);
(1161806429,15); (1161728616,15); (1161650807,15); (1161573002,15); (1161495200,15); (1161417402,15); (1161339608,15); (1161261818,15);
(1161184031,15); (1161106247,15); (1161028468,15); (1160950692,15); (1160872919,15); (1160795151,15); (1160717386,15); (1160639624,15);
(1160561867,15); (1160484113,15); (1160406362,15); (1160328616,15); (1160250872,15); (1160173133,15); (1160095397,15); (1160017665,15);
(1159939937,15); (1159862212,15); (1159784491,15); (1159706773,15); (1159629059,15); (1159551349,15); (1159473643,15); (1159395940,15);
(1159318241,15); (1159240545,15); (1159162853,15); (1159085165,15); (1159007480,15); (1158929799,15); (1158852122,15); (1158774448,15);
(1158696778,15); (1158619112,15); (1158541449,15); (1158463790,15); (1158386134,15); (1158308483,15); (1158230834,15); (1158153190,15);
(1158075549,15); (1157997912,15); (1157920278,15); (1157842648,15); (1157765022,15); (1157687400,15); (1157609781,15); (1157532165,15);
(1157454554,15); (1157376946,15); (1157299341,15); (1157221740,15); (1157144143,15); (1157066550,15); (1156988960,15); (1156911374,15);
(1156833791,15); (1156756212,15); (1156678637,15); (1156601066,15); (1156523498,15); (1156445933,15); (1156368373,15); (1156290816,15);
(1156213262,15); (1156135712,15); (1156058166,15); (1155980624,15); (1155903085,15); (1155825550,15); (1155748018,15); (1155670490,15);
(1155592966,15); (1155515446,15); (1155437929,15); (1155360415,15); (1155282905,15); (1155205399,15); (1155127897,15); (1155050398,15);
(1154972903,15); (1154895411,15); (1154817924,15); (1154740439,15); (1154662959,15); (1154585482,15); (1154508008,15); (1154430539,15);
(1154353073,15); (1154275610,15); (1154198151,15); (1154120696,15); (1154043245,15); (1153965797,15); (1153888352,15); (1153810912,15);
(1153733475,15); (1153656041,15); (1153578612,15); (1153501186,15); (1153423763,15); (1153346344,15); (1153268929,15); (1153191517,15);
(1153114109,15); (1153036705,15); (1152959304,15); (1152881907,15); (1152804514,15); (1152727124,15); (1152649738,15); (1152572355,15);
(1152494976,15); (1152417601,15); (1152340230,15); (1152262861,15); (1152185497,15); (1152108136,15); (1152030779,15); (1151953426,15);
(1151876076,15); (1151798729,15); (1151721387,15); (1151644048,15); (1151566712,15); (1151489381,15); (1151412053,15); (1151334728,15);
(1151257407,15); (1151180090,15); (1151102776,15); (1151025466,15); (1150948160,15); (1150870857,15); (1150793558,15); (1150716262,15);
(1150638971,15); (1150561682,15); (1150484398,15); (1150407117,15); (1150329839,15); (1150252565,15); (1150175295,15); (1150098029,15);
(1150020766,15); (1149943506,15); (1149866251,15); (1149788999,15); (1149711750,15); (1149634505,15); (1149557264,15); (1149480027,15);
(1149402793,15); (1149325562,15); (1149248336,15); (1149171112,15); (1149093893,15); (1149016677,15); (1148939465,15); (1148862256,15);
(1148785051,15); (1148707850,15); (1148630652,15); (1148553458,15); (1148476267,15); (1148399080,15); (1148321897,15); (1148244717,15);
(1148167541,15); (1148090369,15); (1148013200,15); (1147936034,15); (1147858873,15); (1147781715,15); (1147704560,15); (1147627409,15);
(1147550262,15); (1147473119,15); (1147395979,15); (1147318842,15); (1147241710,15); (1147164580,15); (1147087455,15); (1147010333,15);
(1146933215,15); (1146856100,15); (1146778989,15); (1146701881,15); (1146624778,15); (1146547677,15); (1146470581,15); (1146393488,15);
(1146316398,15); (1146239312,15); (1146162230,15); (1146085152,15); (1146008077,15); (1145931005,15); (1145853937,15); (1145776873,15);
(1145699813,15); (1145622756,15); (1145545702,15); (1145468653,15); (1145391606,15); (1145314564,15); (1145237525,15); (1145160490,15);
(1145083458,15); (1145006430,15); (1144929405,15); (1144852384,15); (1144775367,15); (1144698353,15); (1144621343,15); (1144544337,15);
(1144467334,15); (1144390335,15); (1144313339,15); (1144236347,15); (1144159358,15); (1144082373,15); (1144005392,15); (1143928414,15);
(1143851440,15); (1143774470,15); (1143697503,15); (1143620540,15); (1143543580,15); (1143466624,15); (1143389671,15); (1143312722,15);
(1143235777,15); (1143158835,15); (1143081897,15); (1143004963,15); (1142928032,15); (1142851105,15); (1142774181,15); (1142697261,15);
(1142620344,15); (1142543431,15); (1142466522,15); (1142389616,15); (1142312714,15); (1142235816,15); (1142158921,15); (1142082029,15);
(1142005142,15); (1141928257,15); (1141851377,15); (1141774500,15); (1141697627,15); (1141620757,15); (1141543891,15); (1141467028,15);
(1141390169,15); (1141313314,15); (1141236462,15); (1141159614,15); (1141082769,15); (1141005928,15); (1140929090,15); (1140852257,15);
(1140775426,15); (1140698600,15); (1140621776,15); (1140544957,15); (1140468141,15); (1140391329,15); (1140314520,15); (1140237715,15);
(1140160913,15); (1140084115,15); (1140007321,15); (1139930530,15); (1139853743,15); (1139776959,15); (1139700179,15); (1139623403,15);
(1139546630,15); (1139469861,15); (1139393095,15); (1139316333,15); (1139239574,15); (1139162819,15); (1139086068,15); (1139009320,15);
(1138932576,15); (1138855835,15); (1138779098,15); (1138702365,15); (1138625635,15); (1138548909,15); (1138472186,15); (1138395467,15);
(1138318752,15); (1138242040,15); (1138165331,15); (1138088626,15); (1138011925,15); (1137935228,15); (1137858534,15); (1137781843,15);
(1137705156,15); (1137628473,15); (1137551793,15); (1137475117,15); (1137398445,15); (1137321776,15); (1137245110,15); (1137168448,15);
(1137091790,15); (1137015136,15); (1136938484,15); (1136861837,15); (1136785193,15); (1136708553,15); (1136631916,15); (1136555283,15);
(1136478653,15); (1136402027,15); (1136325405,15); (1136248786,15); (1136172170,15); (1136095559,15); (1136018950,15); (1135942346,15);
(1135865745,15); (1135789147,15); (1135712554,15); (1135635963,15); (1135559377,15); (1135482793,15); (1135406214,15); (1135329638,15);
(1135253065,15); (1135176497,15); (1135099931,15); (1135023370,15); (1134946811,15); (1134870257,15); (1134793706,15); (1134717158,15);
(1134640615,15); (1134564074,15); (1134487538,15); (1134411004,15); (1134334475,15); (1134257949,15); (1134181426,15); (1134104907,15);
(1134028392,15); (1133951880,15); (1133875372,15); (1133798868,15); (1133722367,15); (1133645869,15); (1133569375,15); (1133492885,15);
(1133416398,15); (1133339915,15); (1133263435,15); (1133186959,15); (1133110487,15); (1133034018,15); (1132957552,15); (1132881091,15);
(1132804632,15); (1132728178,15); (1132651726,15); (1132575279,15); (1132498835,15); (1132422394,15); (1132345958,15); (1132269524,15);
(1132193095,15); (1132116668,15); (1132040246,15); (1131963827,15); (1131887411,15); (1131810999,15); (1131734591,15); (1131658186,15);
(1131581785,15); (1131505387,15); (1131428993,15); (1131352602,15); (1131276215,15); (1131199832,15); (1131123452,15); (1131047076,15);
(1130970703,15); (1130894334,15); (1130817968,15); (1130741606,15); (1130665247,15); (1130588892,15); (1130512541,15); (1130436193,15);
(1130359849,15); (1130283508,15); (1130207171,15); (1130130837,15); (1130054507,15); (1129978180,15); (1129901857,15); (1129825538,15);
(1129749222,15); (1129672910,15); (1129596601,15); (1129520296,15); (1129443994,15); (1129367696,15); (1129291402,15); (1129215111,15);
(1129138823,15); (1129062539,15); (1128986259,15); (1128909982,15); (1128833709,15); (1128757439,15); (1128681173,15); (1128604910,15);
(1128528651,15); (1128452396,15); (1128376144,15); (1128299895,15); (1128223651,15); (1128147409,15); (1128071172,15); (1127994937,15);
(1127918707,15); (1127842480,15); (1127766256,15); (1127690036,15); (1127613820,15); (1127537607,15); (1127461397,15); (1127385191,15);
(1127308989,15); (1127232790,15); (1127156595,15); (1127080404,15); (1127004216,15); (1126928031,15); (1126851850,15); (1126775673,15);
(1126699499,15); (1126623328,15); (1126547161,15); (1126470998,15); (1126394838,15); (1126318682,15); (1126242530,15); (1126166381,15);
(1126090235,15); (1126014093,15); (1125937954,15); (1125861820,15); (1125785688,15); (1125709560,15); (1125633436,15); (1125557315,15);
(1125481198,15); (1125405084,15); (1125328974,15); (1125252868,15); (1125176764,15); (1125100665,15); (1125024569,15); (1124948476,15)].

(** entries 43008..45055 *)
Definition RECIPROCAL_21 : list (Z * Z) := [
(1124872388,15); (1124796302,15); (1124720220,15); (1124644142,15); (1124568067,15); (1124491996,15); (1124415928,15); (1124339864,15);
(1124263804,15); (1124187746,15); (1124111693,15); (1124035643,15); (1123959596,15); (1123883554,15); (1123807514,15); (1123731478,15);
(1123655446,15); (1123579417,15); (1123503392,15); (1123427370,15); (1123351352,15); (1123275337,15); (1123199326,15); (1123123319,15);
(1123047314,15); (1122971314,15); (1122895317,15); (1122819323,15); (1122743334,15); (1122667347,15); (1122591364,15); (1122515385,15);
(1122439409,15); (1122363437,15); (1122287468,15); (1122211503,15); (1122135541,15); (1122059583,15); (1121983628,15); (1121907677,15);
(1121831730,15); (1121755786,15); (1121679845,15); (1121603908,15); (1121527975,15); (1121452045,15); (1121376118,15); (1121300195,15);
(1121224276,15); (1121148360,15); (1121072448,15); (1120996539,15); (1120920634,15); (1120844732,15); (1120768834,15); (1120692939,15);
(1120617048,15); (1120541160,15); (1120465276,15); (1120389396,15); (1120313519,15); (1120237645,15); (1120161775,15); (1120085909,15);
(1120010046,15); (1119934186,15); (1119858330,15); (1119782478,15); (1119706629,15); (1119630784,15); (1119554942,15); (1119479104,15);
(1119403269,15); (1119327438,15); (1119251610,15); (1119175786,15); (1119099965,15); (1119024148,15); (1118948334,15); (1118872524,15);
(1118796717,15); (1118720914,15); (1118645115,15); (1118569318,15); (1118493526,15); (1118417737,15); (1118341951,15); (1118266169,15);
(1118190391,15); (1118114616,15); (1118038844,15); (1117963076,15); (1117887312,15); (1117811551,15); (1117735794,15); (1117660040,15);
(1117584289,15); (1117508543,15); (1117432799,15); (1117357059,15); (1117281323,15); (1117205590,15); (1117129861,15); (1117054135,15);
(1116978413,15); (1116902694,15); (1116826979,15); (1116751267,15); (1116675559,15); (1116599854,15); (1116524153,15); (1116448456,15);
(1116372761,15); (1116297071,15); (1116221384,15); (1116145700,15); (1116070020,15); (1115994343,15); (1115918670,15); (1115843001,15);
(1115767335,15); (1115691672,15); (1115616013,15); (1115540357,15); (1115464705,15); (1115389057,15); (1115313412,15); (1115237770,15);
(1115162132,15); (1115086498,15); (1115010867,15); (1114935239,15); (1114859615,15); (1114783995,15); (1114708378,15); (1114632764,15);
(1114557154,15); (1114481548,15); (1114405945,15); (1114330345,15); (1114254750,15); (1114179157,15); (1114103568,15); (1114027983,15);
(1113952401,15); (1113876822,15); (1113801247,15); (1113725676,15); (1113650108,15); (1113574544,15); (1113498983,15); (1113423425,15);
(1113347871,15); (1113272321,15); (1113196774,15); (1113121231,15); (1113045691,15); (1112970154,15); (1112894621,15); (1112819092,15);
(1112743566,15); (1112668044,15); (1112592525,15); (1112517009,15); (1112441497,15); (1112365989,15); (1112290484,15); (1112214983,15);
(1112139485,15); (1112063990,15); (1111988499,15); (1111913012,15); (1111837528,15); (1111762047,15); (1111686571,15); (1111611097,15);
(1111535627,15); (1111460161,15); (1111384698,15); (1111309238,15); (1111233782,15); (1111158330,15); (1111082881,15); (1111007435,15);
(1110931993,15); (1110856555,15); (1110781120,15); (1110705688,15); (1110630260,15); (1110554836,15); (1110479415,15); (1110403997,15);
(1110328583,15); (1110253172,15); (1110177765,15); (1110102362,15); (1110026962,15); (1109951565,15); (1109876172,15); (1109800782,15);
(1109725396,15); (1109650013,15); (1109574634,15); (1109499259,15); (1109423886,15); (1109348518,15); (1109273153,15); (1109197791,15);
(1109122433,15); (1109047078,15); (1108971727,15); (1108896379,15); (1108821034,15); (1108745694,15); (1108670356,15); (1108595023,15);
(1108519692,15); (1108444365,15); (1108369042,15); (1108293722,15); (1108218406,15); (1108143093,15); (1108067783,15); (1107992477,15);
(1107917175,15); (1107841876,15); (1107766580,15); (1107691288,15); (1107616000,15); (1107540715,15); (1107465433,15); (1107390155,15);
(1107314881,15); (1107239609,15); (1107164342,15); (1107089078,15); (1107013817,15); (1106938560,15); (1106863306,15); (1106788056,15);
(1106712809,15); (1106637566,15); (1106562326,15); (1106487090,15); (1106411857,15); (1106336628,15); (1106261402,15); (1106186179,15);
(1106110960,15); (1106035745,15); (1105960533,15); (1105885324,15); (1105810119,15); (1105734918,15); (1105659720,15); (1105584525,15);
(1105509334,15); (1105434146,15); (1105358962,15); (1105283782,15); (1105208604,15); (1105133431,15); (1105058260,15); (1104983094,15);
(1104907930,15); (1104832770,15); (1104757614,15); (1104682461,15); (1104607312,15); (1104532166,15); (1104457023,15); (1104381884,15);
(1104306749,15); (1104231617,15); (1104156488,15); (1104081363,15); (1104006241,15); (1103931123,15); (1103856009,15); (1103780897,15);
(1103705790,15); (1103630685,15); (1103555585,15); (1103480487,15); (1103405393,15); (1103330303,15); (1103255216,15); (1103180133,15);
(1103105053,15); (1103029976,15); (1102954903,15); (1102879833,15); (1102804767,15); (1102729705,15); (1102654645,15); (1102579590,15);
(1102504537,15); (1102429489,15); (1102354443,15); (1102279401,15); (1102204363,15); (1102129328,15); (1102054297,15); (1101979269,15);
(1101904244,15); (1101829223,15); (1101754205,15); (1101679191,15); (1101604180,15); (1101529173,15); (1101454169,15); (1101379169,15);
(1101304172,15); (1101229179,15); (1101154189,15); (1101079203,15); (1101004220,15); (1100929240,15); (1100854264,15); (1100779291,15);
(1100704322,15); (1100629357,15); (1100554394,15); (1100479436,15); (1100404480,15); (1100329528,15); (1100254580,15); (1100179635,15);
(1100104694,15); (1100029756,15); (1099954821,15); (1099879890,15); (1099804962,15); (1099730038,15); (1099655118,15); (1099580200,15);
(1099505287,15); (1099430376,15); (1099355469,15); (1099280566,15); (1099205666,15); (1099130769,15); (1099055876,15); (1098980987,15);
(1098906101,15); (1098831218,15); (1098756339,15); (1098681463,15); (1098606590,15); (1098531722,15); (1098456856,15); (1098381994,15);
(1098307136,15); (1098232281,15); (1098157429,15); (1098082581,15); (1098007736,15); (1097932895,15); (1097858057,15); (1097783223,15);
(1097708392,15); (1097633564,15); (1097558740,15); (1097483920,15); (1097409103,15); (1097334289,15); (1097259479,15); (1097184672,15);
(1097109869,15); (1097035069,15); (1096960272,15); (1096885479,15); (1096810690,15); (1096735904,15); (1096661121,15); (1096586342,15);
(1096511566,15); (1096436794,15); (1096362025,15); (1096287260,15); (1096212498,15); (1096137739,15); (1096062984,15); (1095988233,15);
(1095913485,15); (1095838740,15); (1095763999,15); (1095689261,15); (1095614526,15); (1095539795,15); (1095465068,15); (1095390344,15);
(1095315623,15); (1095240906,15); (1095166192,15); (1095091482,15); (1095016775,15); (1094942072,15); (1094867372,15); (1094792676,15);
(1094717983,15); (1094643293,15); (1094568607,15); (1094493924,15); (1094419245,15); (1094344569,15); (1094269896,15); (1094195227,15);
(1094120562,15); (1094045900,15); (1093971241,15); (1093896586,15); (1093821934,15); (1093747286,15); (1093672641,15); (1093597999,15);
(1093523361,15); (1093448727,15); (1093374096,15); (1093299468,15); (1093224844,15); (1093150223,15); (1093075605,15); (1093000991,15);
(1092926381,15); (1092851774,15); (1092777170,15); (1092702570,15); (1092627973,15); (1092553380,15); (1092478790,15); (1092404203,15);
(1092329620,15); (1092255041,15); (1092180465,15); (1092105892,15); (1092031322,15); (1091956757,15); (1091882194,15); (1091807635,15);
(1091733080,15); (1091658527,15); (1091583979,15); (1091509433,15); (1091434891,15); (1091360353,15); (1091285818,15); (1091211286,15);
(1091136758,15); (1091062234,15); (1090987712,15); (1090913194,15); (1090838680,15); (1090764169,15); (1090689661,15); (1090615157,15);
(1090540657,15); (1090466159,15); (1090391666,15); (1090317175,15); (1090242688,15); (1090168205,15); (1090093724,15); (1090019248,15);
(1089944774,15); (1089870305,15); (1089795838,15); (1089721375,15); (1089646915,15); (1089572459,15); (1089498007,15); (1089423557,15);
(1089349111,15); (1089274669,15); (1089200230,15); (1089125794,15); (1089051362,15); (1088976933,15); (1088902508,15); (1088828086,15);
(1088753668,15); (1088679252,15); (1088604841,15); (1088530433,15); (1088456028,15); (1088381626,15); (1088307228,15); (1088232834,15);
(1088158443,15); (1088084055,15); (1088009671,15); (1087935290,15); (1087860912,15); (1087786538,15); (1087712168,15); (1087637801,15);
(1087563437,15); (1087489076,15); (1087414720,15); (1087340366,15); (1087266016,15); (1087191669,15); (1087117326,15); (1087042986,15);
(1086968650,15); (1086894317,15); (1086819987,15); (1086745661,15); (1086671338,15); (1086597019,15); (1086522703,15); (1086448390,15);
(1086374081,15); (1086299776,15); (1086225473,15); (1086151174,15); (1086076879,15); (1086002587,15); (1085928298,15); (1085854013,15);
(1085779731,15); (1085705453,15); (1085631178,15); (1085556906,15); (1085482638,15); (1085408374,15); (1085334112,15); (1085259854,15);
(1085185600,15); (1085111349,15); (1085037101,15); (1084962857,15); (1084888616,15); (1084814379,15); (1084740145,15); (1084665914,15);
(1084591687,15); (1084517463,15); (1084443243,15); (1084369026,15); (1084294812,15); (1084220602,15); (1084146395,15); (1084072192,15);
(1083997992,15); (1083923795,15); (1083849602,15); (1083775412,15); (1083701226,15); (1083627043,15); (1083552864,15); (1083478688,15);
(1083404515,15); (1083330346,15); (1083256180,15); (1083182017,15); (1083107858,15); (1083033703,15); (1082959550,15); (1082885401,15);
(1082811256,15); (1082737114,15); (1082662975,15); (1082588840,15); (1082514708,15); (1082440580,15); (1082366455,15); (1082292333,15);
(1082218215,15); (1082144100,15); (1082069989,15); (1081995881,15); (1081921776,15); (1081847675,15); (1081773577,15); (1081699483,15);
(1081625391,15); (1081551304,15); (1081477220,15); (1081403139,15); (1081329061,15); (1081254987,15); (1081180917,15); (1081106850,15);
(1081032786,15); (1080958725,15); (1080884668,15); (1080810615,15); (1080736564,15); (1080662517,15); (1080588474,15); (1080514434,15);
(1080440397,15); (1080366364,15); (1080292334,15); (1080218308,15); (1080144285,15); (1080070265,15); (1079996249,15); (1079922236,15);
(1079848226,15); (1079774220,15); (1079700218,15); (1079626218,15); (1079552222,15); (1079478230,15); (1079404241,15); (1079330255,15);
(1079256273,15); (1079182294,15); (1079108318,15); (1079034346,15); (1078960377,15); (1078886412,15); (1078812450,15); (1078738491,15);
(1078664536,15); (1078590584,15); (1078516636,15); (1078442691,15); (1078368749,15); (1078294811,15); (1078220876,15); (1078146944,15);
(1078073016,15); (1077999092,15); (1077925170,15); (1077851252,15); (1077777338,15); (1077703427,15); (1077629519,15); (1077555615,15);
(1077481714,15); (1077407816,15); (1077333922,15); (1077260031,15); (1077186143,15); (1077112259,15); (1077038379,15); (1076964501,15);
(1076890628,15); (1076816757,15); (1076742890,15); (1076669026,15); (1076595166,15); (1076521309,15); (1076447455,15); (1076373605,15);
(1076299758,15); (1076225915,15); (1076152075,15); (1076078238,15); (1076004405,15); (1075930575,15); (1075856748,15); (1075782925,15);
(1075709105,15); (1075635289,15); (1075561476,15); (1075487666,15); (1075413860,15); (1075340057,15); (1075266258,15); (1075192461,15);
(1075118669,15); (1075044879,15); (1074971093,15); (1074897311,15); (1074823532,15); (1074749756,15); (1074675983,15); (1074602214,15);
(1074528449,15); (1074454686,15); (1074380927,15); (1074307172,15); (1074233420,15); (1074159671,15); (1074085925,15); (1074012183,15);
(1073938445,15); (1073864709,15); (1073790977,15); (1073717249,15); (1073643523,15); (1073569802,15); (1073496083,15); (1073422368,15);
(1073348656,15); (1073274948,15); (1073201243,15); (1073127542,15); (1073053843,15); (1072980149,15); (1072906457,15); (1072832769,15);
(1072759084,15); (1072685403,15); (1072611725,15); (1072538051,15); (1072464379,15); (1072390711,15); (1072317047,15); (1072243386,15);
(1072169728,15); (1072096074,15); (1072022423,15); (1071948775,15); (1071875131,15); (1071801490,15); (1071727852,15); (1071654218,15);
(1071580588,15); (1071506960,15); (1071433336,15); (1071359715,15); (1071286098,15); (1071212484,15); (1071138874,15); (1071065266,15);
(1070991662,15); (1070918062,15); (1070844465,15); (1070770871,15); (1070697281,15); (1070623694,15); (1070550110,15); (1070476530,15);
(1070402953,15); (1070329379,15); (1070255809,15); (1070182242,15); (1070108679,15); (1070035119,15); (1069961562,15); (1069888009,15);
(1069814459,15); (1069740912,15); (1069667369,15); (1069593829,15); (1069520292,15); (1069446759,15); (1069373229,15); (1069299703,15);
(1069226180,15); (1069152660,15); (1069079143,15); (1069005630,15); (1068932121,15); (1068858614,15); (1068785111,15); (1068711612,15);
(1068638116,15); (1068564623,15); (1068491133,15); (1068417647,15); (1068344164,15); (1068270685,15); (1068197209,15); (1068123736,15);
(1068050267,15); (1067976801,15); (1067903338,15); (1067829879,15); (1067756423,15); (1067682970,15); (1067609521,15); (1067536075,15);
(1067462633,15); (1067389193,15); (1067315758,15); (1067242325,15); (1067168896,15); (1067095470,15); (1067022048,15); (1066948629,15);
(1066875213,15); (1066801801,15); (1066728392,15); (1066654986,15); (1066581584,15); (1066508185,15); (1066434789,15); (1066361397,15);
(1066288008,15); (1066214623,15); (1066141241,15); (1066067862,15); (1065994486,15); (1065921114,15); (1065847746,15); (1065774380,15);
(1065701018,15); (1065627659,15); (1065554304,15); (1065480952,15); (1065407603,15); (1065334258,15); (1065260916,15); (1065187578,15);
(1065114242,15); (1065040910,15); (1064967582,15); (1064894257,15); (1064820935,15); (1064747616,15); (1064674301,15); (1064600989,15);
(1064527681,15); (1064454376,15); (1064381074,15); (1064307775,15); (1064234480,15); (1064161188,15); (1064087900,15); (1064014615,15);
(1063941333,15); (1063868055,15); (1063794780,15); (1063721508,15); (1063648240,15); (1063574975,15); (1063501713,15); (1063428455,15);
(1063355200,15); (1063281948,15); (1063208700,15); (1063135455,15); (1063062213,15); (1062988975,15); (1062915740,15); (1062842509,15);
(1062769280,15); (1062696055,15); (1062622834,15); (1062549616,15); (1062476401,15); (1062403189,15); (1062329981,15); (1062256776,15);
(1062183575,15); (1062110376,15); (1062037182,15); (1061963990,15); (1061890802,15); (1061817617,15); (1061744436,15); (1061671257,15);
(1061598083,15); (1061524911,15); (1061451743,15); (1061378578,15); (1061305417,15); (1061232259,15); (1061159104,15); (1061085952,15);
(1061012804,15); (1060939659,15); (1060866518,15); (1060793380,15); (1060720245,15); (1060647114,15); (1060573985,15); (1060500861,15);
(1060427739,15); (1060354621,15); (1060281506,15); (1060208395,15); (1060135287,15); (1060062182,15); (1059989080,15); (1059915982,15);
(1059842887,15); (1059769796,15); (1059696708,15); (1059623623,15); (1059550542,15); (1059477463,15); (1059404389,15); (1059331317,15);
(1059258249,15); (1059185184,15); (1059112123,15); (1059039065,15); (1058966010,15); (1058892958,15); (1058819910,15); (1058746865,15);
(1058673824,15); (1058600785,15); (1058527751,15); (1058454719,15); (1058381691,15); (1058308666,15); (1058235644,15); (1058162626,15);
(1058089611,15); (1058016600,15); (1057943591,15); (1057870587,15); (1057797585,15); (1057724587,15); (1057651592,15); (1057578600,15);
(1057505612,15); (1057432627,15); (1057359645,15); (1057286667,15); (1057213692,15); (1057140720,15); (1057067752,15); (1056994787,15);
(1056921825,15); (1056848867,15); (1056775912,15); (1056702960,15); (1056630011,15); (1056557066,15); (1056484125,15); (1056411186,15);
(1056338251,15); (1056265319,15); (1056192391,15); (1056119465,15); (1056046544,15); (1055973625,15); (1055900710,15); (1055827798,15);
(1055754889,15); (1055681984,15); (1055609082,15); (1055536184,15); (1055463288,15); (1055390396,15); (1055317508,15); (1055244622,15);
(1055171740,15); (1055098861,15); (1055025986,15); (1054953114,15); (1054880245,15); (1054807380,15); (1054734518,15); (1054661659,15);
(1054588803,15); (1054515951,15); (1054443102,15); (1054370257,15); (1054297414,15); (1054224575,15); (1054151740,15); (1054078908,15);
(1054006079,15); (1053933253,15); (1053860430,15); (1053787611,15); (1053714796,15); (1053641983,15); (1053569174,15); (1053496368,15);
(1053423566,15); (1053350767,15); (1053277971,15); (1053205178,15); (1053132389,15); (1053059603,15); (1052986820,15); (1052914041,15);
(1052841265,15); (1052768492,15); (1052695723,15); (1052622957,15); (1052550194,15); (1052477435,15); (1052404679,15); (1052331926,15);
(1052259176,15); (1052186430,15); (1052113687,15); (1052040947,15); (1051968211,15); (1051895478,15); (1051822748,15); (1051750022,15);
(1051677299,15); (1051604579,15); (1051531863,15); (1051459150,15); (1051386440,15); (1051313733,15); (1051241030,15); (1051168330,15);
(1051095633,15); (1051022940,15); (1050950250,15); (1050877563,15); (1050804880,15); (1050732200,15); (1050659523,15); (1050586849,15);
(1050514179,15); (1050441512,15); (1050368849,15); (1050296188,15); (1050223531,15); (1050150878,15); (1050078227,15); (1050005580,15);
(1049932936,15); (1049860296,15); (1049787659,15); (1049715025,15); (1049642394,15); (1049569767,15); (1049497143,15); (1049424522,15);
(1049351905,15); (1049279291,15); (1049206680,15); (1049134072,15); (1049061468,15); (1048988867,15); (1048916270,15); (1048843675,15);
(1048771084,15); (1048698497,15); (1048625912,15); (1048553331,15); (1048480753,15); (1048408179,15); (1048335608,15); (1048263040,15);
(1048190475,15); (1048117914,15); (1048045356,15); (1047972801,15); (1047900249,15); (1047827701,15); (1047755156,15); (1047682615,15);
(1047610077,15); (1047537542,15); (1047465010,15); (1047392481,15); (1047319956,15); (1047247434,15); (1047174916,15); (1047102401,15);
(1047029889,15); (1046957380,15); (1046884875,15); (1046812373,15); (1046739874,15); (1046667378,15); (1046594886,15); (1046522397,15);
(1046449912,15); (1046377429,15); (1046304950,15); (1046232475,15); (1046160002,15); (1046087533,15); (1046015067,15); (1045942605,15);
(1045870145,15); (1045797689,15); (1045725237,15); (1045652787,15); (1045580341,15); (1045507898,15); (1045435459,15); (1045363022,15);
(1045290589,15); (1045218160,15); (1045145733,15); (1045073310,15); (1045000890,15); (1044928474,15); (1044856060,15); (1044783650,15);
(1044711244,15); (1044638840,15); (1044566440,15); (1044494043,15); (1044421650,15); (1044349259,15); (1044276872,15); (1044204488,15);
(1044132108,15); (1044059731,15); (1043987357,15); (1043914986,15); (1043842619,15); (1043770255,15); (1043697894,15); (1043625537,15);
(1043553183,15); (1043480832,15); (1043408484,15); (1043336140,15); (1043263799,15); (1043191461,15); (1043119126,15); (1043046795,15);
(1042974467,15); (1042902143,15); (1042829821,15); (1042757503,15); (1042685188,15); (1042612877,15); (1042540568,15); (1042468263,15);
(1042395962,15); (1042323663,15); (1042251368,15); (1042179076,15); (1042106788,15); (1042034502,15); (1041962220,15); (1041889941,15);
(1041817666,15); (1041745394,15); (1041673125,15); (1041600859,15); (1041528597,15); (1041456337,15); (1041384082,15); (1041311829,15);
(1041239580,15); (1041167334,15); (1041095091,15); (1041022851,15); (1040950615,15); (1040878382,15); (1040806153,15); (1040733926,15);
(1040661703,15); (1040589483,15); (1040517267,15); (1040445053,15); (1040372843,15); (1040300637,15); (1040228433,15); (1040156233,15);
(1040084036,15); (1040011842,15); (1039939652,15); (1039867465,15); (1039795281,15); (1039723100,15); (1039650923,15); (1039578749,15);
(1039506578,15); (1039434410,15); (1039362246,15); (1039290085,15); (1039217927,15); (1039145773,15); (1039073622,15); (1039001474,15);
(1038929329,15); (1038857188,15); (1038785050,15); (1038712915,15); (1038640783,15); (1038568655,15); (1038496530,15); (1038424408,15);
(1038352290,15); (1038280174,15); (1038208062,15); (1038135954,15); (1038063848,15); (1037991746,15); (1037919647,15); (1037847551,15);
(1037775459,15); (1037703370,15); (1037631284,15); (1037559201,15); (1037487122,15); (1037415046,15); (1037342973,15); (1037270903,15);
(1037198837,15); (1037126774,15); (1037054714,15); (1036982658,15); (1036910604,15); (1036838554,15); (1036766508,15); (1036694464,15);
(1036622424,15); (1036550387,15); (1036478353,15); (1036406323,15); (1036334296,15); (1036262272,15); (1036190251,15); (1036118234,15);
(1036046219,15); (1035974208,15); (1035902201,15); (1035830196,15); (1035758195,15); (1035686197,15); (1035614203,15); (1035542211,15);
(1035470223,15); (1035398239,15); (1035326257,15); (1035254279,15); (1035182304,15); (1035110332,15); (1035038363,15); (1034966398,15);
(1034894436,15); (1034822477,15); (1034750521,15); (1034678569,15); (1034606620,15); (1034534674,15); (1034462732,15); (1034390792,15);
(1034318856,15); (1034246924,15); (1034174994,15); (1034103068,15); (1034031145,15); (1033959225,15); (1033887309,15); (1033815395,15);
(1033743485,15); (1033671579,15); (1033599675,15); (1033527775,15); (1033455878,15); (1033383984,15); (1033312093,15); (1033240206,15);
(1033168322,15); (1033096441,15); (1033024564,15); (1032952690,15); (1032880819,15); (1032808951,15); (1032737086,15); (1032665225,15);
(1032593367,15); (1032521512,15); (1032449661,15); (1032377812,15); (1032305967,15); (1032234126,15); (1032162287,15); (1032090452,15);
(1032018620,15); (1031946791,15); (1031874965,15); (1031803143,15); (1031731324,15); (1031659508,15); (1031587696,15); (1031515886,15);
(1031444080,15); (1031372277,15); (1031300478,15); (1031228681,15); (1031156888,15); (1031085098,15); (1031013312,15); (1030941528,15);
(1030869748,15); (1030797971,15); (1030726197,15); (1030654427,15); (1030582660,15); (1030510896,15); (1030439135,15); (1030367378,15);
(1030295624,15); (1030223873,15); (1030152125,15); (1030080380,15); (1030008639,15); (1029936901,15); (1029865166,15); (1029793435,15);
(1029721706,15); (1029649981,15); (1029578259,15); (1029506541,15); (1029434826,15); (1029363113,15); (1029291405,15); (1029219699,15);
(1029147996,15); (1029076297,15); (1029004601,15); (1028932909,15); (1028861219,15); (1028789533,15); (1028717850,15); (1028646170,15);
(1028574494,15); (1028502820,15); (1028431150,15); (1028359484,15); (1028287820,15); (1028216160,15); (1028144503,15); (1028072849,15);
(1028001198,15); (1027929551,15); (1027857906,15); (1027786266,15); (1027714628,15); (1027642993,15); (1027571362,15); (1027499734,15);
(1027428109,15); (1027356488,15); (1027284869,15); (1027213254,15); (1027141642,15); (1027070034,15); (1026998428,15); (1026926826,15);
(1026855227,15); (1026783632,15); (1026712039,15); (1026640450,15); (1026568864,15); (1026497281,15); (1026425702,15); (1026354125,15);
(1026282552,15); (1026210982,15); (1026139416,15); (1026067852,15); (1025996292,15); (1025924735,15); (1025853181,15); (1025781631,15);
(1025710083,15); (1025638539,15); (1025566999,15); (1025495461,15); (1025423927,15); (1025352395,15); (1025280867,15); (1025209343,15);
(1025137821,15); (1025066303,15); (1024994788,15); (1024923276,15); (1024851768,15); (1024780262,15); (1024708760,15); (1024637261,15);
(1024565765,15); (1024494273,15); (1024422784,15); (1024351298,15); (1024279815,15); (1024208335,15); (1024136859,15); (1024065386,15);
(1023993916,15); (1023922449,15); (1023850986,15); (1023779526,15); (1023708068,15); (1023636615,15); (1023565164,15); (1023493717,15);
(1023422273,15); (1023350832,15); (1023279394,15); (1023207959,15); (1023136528,15); (1023065100,15); (1022993675,15); (1022922254,15);
(1022850835,15); (1022779420,15); (1022708008,15); (1022636599,15); (1022565194,15); (1022493791,15); (1022422392,15); (1022350996,15);
(1022279604,15); (1022208214,15); (1022136828,15); (1022065445,15); (1021994065,15); (1021922689,15); (1021851315,15); (1021779945,15);
(1021708578,15); (1021637214,15); (1021565854,15); (1021494497,15); (1021423142,15); (1021351792,15); (1021280444,15); (1021209099,15);
(1021137758,15); (1021066420,15); (1020995085,15); (1020923754,15); (1020852425,15); (1020781100,15); (1020709778,15); (1020638459,15);
(1020567144,15); (1020495832,15); (1020424522,15); (1020353216,15); (1020281914,15); (1020210614,15); (1020139318,15); (1020068025,15);
(1019996735,15); (1019925448,15); (1019854165,15); (1019782885,15); (1019711608,15); (1019640334,15); (1019569063,15); (1019497796,15);
(1019426532,15); (1019355271,15); (1019284013,15); (1019212758,15); (1019141507,15); (1019070259,15); (1018999014,15); (1018927772,15);
(1018856533,15); (1018785298,15); (1018714066,15); (1018642837,15); (1018571611,15); (1018500389,15); (1018429169,15); (1018357953,15);
(1018286740,15); (1018215530,15); (1018144324,15); (1018073121,15); (1018001921,15); (1017930724,15); (1017859530,15); (1017788339,15);
(1017717152,15); (1017645968,15); (1017574787,15); (1017503609,15); (1017432435,15); (1017361264,15); (1017290096,15); (1017218931,15);
(1017147769,15); (1017076611,15); (1017005455,15); (1016934303,15); (1016863154,15); (1016792009,15); (1016720866,15); (1016649727,15);
(1016578591,15); (1016507458,15); (1016436328,15); (1016365202,15); (1016294078,15); (1016222958,15); (1016151841,15); (1016080728,15);
(1016009617,15); (1015938510,15); (1015867406,15); (1015796305,15); (1015725207,15); (1015654112,15); (1015583021,15); (1015511933,15);
(1015440848,15); (1015369766,15); (1015298688,15); (1015227612,15); (1015156540,15); (1015085471,15); (1015014406,15); (1014943343,15);
(1014872284,15); (1014801227,15); (1014730174,15); (1014659125,15); (1014588078,15); (1014517035,15); (1014445994,15); (1014374957,15);
(1014303923,15); (1014232893,15); (1014161865,15); (1014090841,15); (1014019820,15); (1013948802,15); (1013877787,15); (1013806776,15);
(1013735767,15); (1013664762,15); (1013593760,15); (1013522762,15); (1013451766,15); (1013380774,15); (1013309785,15); (1013238799,15);
(1013167816,15); (1013096836,15); (1013025860,15); (1012954886,15); (1012883916,15); (1012812950,15); (1012741986,15); (1012671025,15);
(1012600068,15); (1012529114,15); (1012458163,15); (1012387215,15); (1012316271,15); (1012245329,15); (1012174391,15); (1012103456,15);
(1012032524,15); (1011961596,15); (1011890670,15); (1011819748,15); (1011748829,15); (1011677913,15); (1011607000,15); (1011536091,15);
(1011465184,15); (1011394281,15); (1011323381,15); (1011252484,15); (1011181591,15); (1011110700,15); (1011039813,15); (1010968929,15);
(1010898048,15); (1010827170,15); (1010756296,15); (1010685424,15); (1010614556,15); (1010543691,15); (1010472830,15); (1010401971,15);
(1010331115,15); (1010260263,15); (1010189414,15); (1010118568,15); (1010047725,15); (1009976886,15); (1009906050,15); (1009835216,15);
(1009764386,15); (1009693559,15); (1009622736,15); (1009551915,15); (1009481098,15); (1009410284,15); (1009339473,15); (1009268665,15);
(1009197861,15); (1009127059,15); (1009056261,15); (1008985466,15); (1008914674,15); (1008843885,15); (1008773100,15); (1008702317,15);
(1008631538,15); (1008560762,15); (1008489989,15); (1008419220,15); (1008348453,15); (1008277690,15); (1008206930,15); (1008136173,15);
(1008065419,15); (1007994668,15); (1007923921,15); (1007853176,15); (1007782435,15); (1007711697,15); (1007640963,15); (1007570231,15);
(1007499503,15); (1007428777,15); (1007358055,15); (1007287336,15); (1007216620,15); (1007145908,15); (1007075198,15); (1007004492,15);
(1006933789,15); (1006863089,15); (1006792393,15); (1006721699,15); (1006651009,15); (1006580321,15); (1006509637,15); (1006438956,15);
(1006368279,15); (1006297604,15); (1006226933,15); (1006156265,15); (1006085600,15); (1006014938,15); (1005944279,15); (1005873623,15);
(1005802971,15); (1005732322,15); (1005661676,15); (1005591033,15); (1005520393,15); (1005449757,15); (1005379123,15); (1005308493,15);
(1005237866,15); (1005167242,15); (1005096621,15); (1005026004,15); (1004955389,15); (1004884778,15); (1004814170,15); (1004743565,15);
(1004672963,15); (1004602365,15); (1004531769,15); (1004461177,15); (1004390588,15); (1004320002,15); (1004249419,15); (1004178839,15);
(1004108263,15); (1004037690,15); (1003967120,15); (1003896553,15); (1003825989,15); (1003755428,15); (1003684871,15); (1003614316,15);
(1003543765,15); (1003473217,15); (1003402672,15); (1003332130,15); (1003261592,15); (1003191057,15); (1003120524,15); (1003049995,15);
(1002979469,15); (1002908947,15); (1002838427,15); (1002767911,15); (1002697397,15); (1002626887,15); (1002556380,15); (1002485876,15);
(1002415376,15); (1002344878,15); (1002274384,15); (1002203893,15); (1002133405,15); (1002062920,15); (1001992438,15); (1001921959,15);
(1001851484,15); (1001781012,15); (1001710543,15); (1001640077,15); (1001569614,15); (1001499154,15); (1001428698,15); (1001358244,15);
(1001287794,15); (1001217347,15); (1001146903,15); (1001076462,15); (1001006025,15); (1000935590,15); (1000865159,15); (1000794731,15);
(1000724306,15); (1000653884,15); (1000583466,15); (1000513050,15); (1000442638,15); (1000372228,15); (1000301822,15); (1000231419,15);
(1000161020,15); (1000090623,15); (1000020229,15); (999949839,15); (999879452,15); (999809068,15); (999738687,15); (999668309,15);
(999597935,15); (999527563,15); (999457195,15); (999386830,15); (999316468,15); (999246109,15); (999175753,15); (999105401,15);
(999035051,15); (998964705,15); (998894362,15); (998824022,15); (998753685,15); (998683351,15); (998613021,15); (998542693,15);
(998472369,15); (998402048,15); (998331730,15); (998261415,15); (998191103,15); (998120795,15); (998050489,15); (997980187,15);
(997909888,15); (997839592,15); (997769299,15); (997699010,15); (997628723,15); (997558440,15); (997488159,15); (997417882,15);
(997347608,15); (997277337,15); (997207070,15); (997136805,15); (997066544,15); (996996285,15); (996926030,15); (996855778,15);
(996785529,15); (996715284,15); (996645041,15); (996574802,15); (996504565,15); (996434332,15); (996364102,15); (996293875,15);
(996223651,15); (996153431,15); (996083213,15); (996012999,15); (995942788,15); (995872580,15); (995802375,15); (995732173,15);
(995661974,15); (995591779,15); (995521586,15); (995451397,15); (995381211,15); (995311028,15); (995240848,15); (995170671,15);
(995100498,15); (995030327,15); (994960160,15); (994889996,15); (994819835,15); (994749677,15); (994679522,15); (994609370,15);
(994539222,15); (994469076,15); (994398934,15); (994328795,15); (994258659,15); (994188526,15); (994118396,15); (994048270,15);
(993978146,15); (993908026,15); (993837909,15); (993767794,15); (993697684,15); (993627576,15); (993557471,15); (993487369,15);
(993417271,15); (993347176,15); (993277083,15); (993206994,15); (993136908,15); (993066826,15); (992996746,15); (992926669,15);
(992856596,15); (992786526,15); (992716459,15); (992646395,15); (992576334,15); (992506276,15); (992436221,15); (992366170,15);
(992296121,15); (992226076,15); (992156034,15); (992085995,15); (992015959,15); (991945926,15); (991875896,15); (991805870,15);
(991735847,15); (991665826,15); (991595809,15); (991525795,15); (991455784,15); (991385776,15); (991315772,15); (991245770,15);
(991175772,15); (991105776,15); (991035784,15); (990965795,15); (990895809,15); (990825826,15); (990755847,15); (990685870,15);
(990615897,15); (990545926,15); (990475959,15); (990405995,15); (990336034,15); (990266076,15); (990196121,15); (990126170,15);
(990056221,15); (989986276,15); (989916334,15); (989846395,15); (989776459,15); (989706526,15); (989636596,15); (989566669,15);
(989496746,15); (989426825,15); (989356908,15); (989286994,15); (989217083,15); (989147175,15); (989077270,15); (989007368,15);
(988937469,15); (988867574,15); (988797681,15); (988727792,15); (988657906,15); (988588023,15); (988518143,15); (988448266,15);
(988378393,15); (988308522,15); (988238654,15); (988168790,15); (988098929,15); (988029071,15); (987959216,15); (987889364,15);
(987819515,15); (987749669,15); (987679827,15); (987609987,15); (987540151,15); (987470318,15); (987400487,15); (987330660,15);
(987260837,15); (987191016,15); (987121198,15); (987051383,15); (986981572,15); (986911764,15); (986841958,15); (986772156,15);
(986702357,15); (986632561,15); (986562768,15); (986492979,15); (986423192,15); (986353409,15); (986283628,15); (986213851,15);
(986144077,15); (986074306,15); (986004538,15); (985934773,15); (985865011,15); (985795253,15); (985725497,15); (985655745,15);
(985585995,15); (985516249,15); (985446506,15); (985376766,15); (985307029,15); (985237295,15); (985167565,15); (985097837,15);
(985028113,15); (984958391,15); (984888673,15); (984818958,15); (984749246,15); (984679537,15); (984609831,15); (984540128,15);
(984470428,15); (984400732,15); (984331038,15); (984261348,15); (984191661,15); (984121977,15); (984052296,15); (983982618,15);
(983912943,15); (983843271,15); (983773602,15); (983703937,15); (983634274,15); (983564615,15); (983494959,15); (983425306,15);
(983355656,15); (983286009,15); (983216365,15); (983146724,15); (983077086,15); (983007452,15); (982937820,15); (982868192,15);
(982798567,15); (982728945,15); (982659326,15); (982589710,15); (982520097,15); (982450487,15); (982380880,15); (982311277,15);
(982241676,15); (982172079,15); (982102484,15); (982032893,15); (981963305,15); (981893720,15); (981824138,15); (981754559,15);
(981684984,15); (981615411,15); (981545841,15); (981476275,15); (981406712,15); (981337151,15); (981267594,15); (981198040,15);
(981128489,15); (981058941,15); (980989396,15); (980919855,15); (980850316,15); (980780781,15); (980711248,15); (980641719,15);
(980572193,15); (980502669,15); (980433149,15); (980363632,15); (980294118,15); (980224608,15); (980155100,15); (980085595,15);
(980016094,15); (979946595,15); (979877100,15); (979807608,15); (979738118,15); (979668632,15); (979599149,15); (979529669,15);
(979460193,15); (979390719,15); (979321248,15); (979251781,15); (979182316,15); (979112855,15); (979043396,15); (978973941,15);
(978904489,15); (978835040,15); (978765594,15); (978696151,15); (978626711,15); (978557275,15); (978487841,15); (978418410,15);
(978348983,15); (978279559,15); (978210137,15); (978140719,15); (978071304,15); (978001892,15); (977932483,15); (977863077,15);
(977793674,15); (977724275,15); (977654878,15); (977585484,15); (977516094,15); (977446707,15); (977377322,15); (977307941,15);
(977238563,15); (977169188,15); (977099816,15); (977030447,15); (976961081,15); (976891718,15); (976822359,15); (976753002,15);
(976683649,15); (976614298,15); (976544951,15); (976475607,15); (976406265,15); (976336927,15); (976267592,15); (976198260,15)].

(** entries 45056..47103 *)
Definition RECIPROCAL_22 : list (Z * Z) := [
(976128931,15); (976059606,15); (975990283,15); (975920963,15); (975851647,15); (975782333,15); (975713023,15); (975643715,15);
(975574411,15); (975505110,15); (975435812,15); (975366517,15); (975297225,15); (975227936,15); (975158650,15); (975089367,15);
(975020088,15); (974950811,15); (974881538,15); (974812267,15); (974743000,15); (974673736,15); (974604474,15); (974535216,15);
(974465961,15); (974396709,15); (974327460,15); (974258214,15); (974188972,15); (974119732,15); (974050495,15); (973981262,15);
(973912031,15); (973842804,15); (973773579,15); (973704358,15); (973635140,15); (973565925,15); (973496713,15); (973427504,15);
(973358298,15); (973289095,15); (973219895,15); (973150698,15); (973081505,15); (973012314,15); (972943126,15); (972873942,15);
(972804761,15); (972735582,15); (972666407,15); (972597235,15); (972528066,15); (972458900,15); (972389737,15); (972320577,15);
(972251420,15); (972182266,15); (972113115,15); (972043968,15); (971974823,15); (971905681,15); (971836543,15); (971767408,15);
(971698275,15); (971629146,15); (971560020,15); (971490897,15); (971421777,15); (971352660,15); (971283546,15); (971214435,15);
(971145327,15); (971076222,15); (971007120,15); (970938022,15); (970868926,15); (970799834,15); (970730744,15); (970661658,15);
(970592574,15); (970523494,15); (970454417,15); (970385343,15); (970316272,15); (970247204,15); (970178139,15); (970109077,15);
(970040018,15); (969970962,15); (969901909,15); (969832860,15); (969763813,15); (969694770,15); (969625729,15); (969556692,15);
(969487657,15); (969418626,15); (969349598,15); (969280573,15); (969211550,15); (969142531,15); (969073515,15); (969004502,15);
(968935492,15); (968866485,15); (968797482,15); (968728481,15); (968659483,15); (968590489,15); (968521497,15); (968452508,15);
(968383523,15); (968314541,15); (968245561,15); (968176585,15); (968107612,15); (968038641,15); (967969674,15); (967900710,15);
(967831749,15); (967762791,15); (967693836,15); (967624884,15); (967555935,15); (967486990,15); (967418047,15); (967349107,15);
(967280171,15); (967211237,15); (967142306,15); (967073379,15); (967004455,15); (966935533,15); (966866615,15); (966797700,15);
(966728787,15); (966659878,15); (966590972,15); (966522069,15); (966453169,15); (966384272,15); (966315378,15); (966246487,15);
(966177599,15); (966108715,15); (966039833,15); (965970954,15); (965902078,15); (965833206,15); (965764336,15); (965695470,15);
(965626606,15); (965557746,15); (965488889,15); (965420034,15); (965351183,15); (965282335,15); (965213490,15); (965144647,15);
(965075808,15); (965006972,15); (964938139,15); (964869309,15); (964800482,15); (964731659,15); (964662838,15); (964594020,15);
(964525205,15); (964456394,15); (964387585,15); (964318779,15); (964249977,15); (964181177,15); (964112381,15); (964043587,15);
(963974797,15); (963906010,15); (963837225,15); (963768444,15); (963699666,15); (963630890,15); (963562118,15); (963493349,15);
(963424583,15); (963355820,15); (963287060,15); (963218303,15); (963149549,15); (963080798,15); (963012051,15); (962943306,15);
(962874564,15); (962805825,15); (962737090,15); (962668357,15); (962599627,15); (962530901,15); (962462177,15); (962393457,15);
(962324739,15); (962256025,15); (962187314,15); (962118605,15); (962049900,15); (961981198,15); (961912498,15); (961843802,15);
(961775109,15); (961706419,15); (961637732,15); (961569048,15); (961500367,15); (961431689,15); (961363014,15); (961294342,15);
(961225673,15); (961157007,15); (961088344,15); (961019684,15); (960951028,15); (960882374,15); (960813723,15); (960745076,15);
(960676431,15); (960607789,15); (960539151,15); (960470515,15); (960401883,15); (960333253,15); (960264627,15); (960196004,15);
(960127383,15); (960058766,15); (959990151,15); (959921540,15); (959852932,15); (959784327,15); (959715724,15); (959647125,15);
(959578529,15); (959509936,15); (959441346,15); (959372759,15); (959304175,15); (959235594,15); (959167016,15); (959098441,15);
(959029869,15); (958961300,15); (958892734,15); (958824171,15); (958755612,15); (958687055,15); (958618501,15); (958549950,15);
(958481403,15); (958412858,15); (958344316,15); (958275778,15); (958207242,15); (958138710,15); (958070180,15); (958001653,15);
(957933130,15); (957864609,15); (957796092,15); (957727578,15); (957659066,15); (957590558,15); (957522052,15); (957453550,15);
(957385051,15); (957316554,15); (957248061,15); (957179571,15); (957111084,15); (957042600,15); (956974118,15); (956905640,15);
(956837165,15); (956768693,15); (956700224,15); (956631758,15); (956563295,15); (956494835,15); (956426378,15); (956357924,15);
(956289473,15); (956221025,15); (956152580,15); (956084138,15); (956015699,15); (955947263,15); (955878830,15); (955810400,15);
(955741973,15); (955673549,15); (955605129,15); (955536711,15); (955468296,15); (955399884,15); (955331476,15); (955263070,15);
(955194667,15); (955126268,15); (955057871,15); (954989477,15); (954921087,15); (954852699,15); (954784314,15); (954715933,15);
(954647554,15); (954579179,15); (954510806,15); (954442436,15); (954374070,15); (954305706,15); (954237346,15); (954168988,15);
(954100634,15); (954032282,15); (953963934,15); (953895589,15); (953827246,15); (953758907,15); (953690570,15); (953622237,15);
(953553907,15); (953485579,15); (953417255,15); (953348934,15); (953280615,15); (953212300,15); (953143988,15); (953075678,15);
(953007372,15); (952939069,15); (952870768,15); (952802471,15); (952734177,15); (952665886,15); (952597597,15); (952529312,15);
(952461030,15); (952392751,15); (952324475,15); (952256201,15); (952187931,15); (952119664,15); (952051400,15); (951983139,15);
(951914880,15); (951846625,15); (951778373,15); (951710124,15); (951641878,15); (951573635,15); (951505395,15); (951437157,15);
(951368923,15); (951300692,15); (951232464,15); (951164239,15); (951096017,15); (951027798,15); (950959582,15); (950891369,15);
(950823158,15); (950754951,15); (950686747,15); (950618546,15); (950550348,15); (950482153,15); (950413961,15); (950345772,15);
(950277586,15); (950209403,15); (950141223,15); (950073046,15); (950004872,15); (949936701,15); (949868533,15); (949800367,15);
(949732205,15); (949664046,15); (949595890,15); (949527737,15); (949459587,15); (949391440,15); (949323296,15); (949255155,15);
(949187017,15); (949118882,15); (949050750,15); (948982621,15); (948914495,15); (948846372,15); (948778251,15); (948710134,15);
(948642020,15); (948573909,15); (948505801,15); (948437696,15); (948369594,15); (948301495,15); (948233399,15); (948165306,15);
(948097215,15); (948029128,15); (947961044,15); (947892963,15); (947824885,15); (947756810,15); (947688738,15); (947620669,15);
(947552602,15); (947484539,15); (947416479,15); (947348422,15); (947280368,15); (947212317,15); (947144268,15); (947076223,15);
(947008181,15); (946940142,15); (946872105,15); (946804072,15); (946736042,15); (946668015,15); (946599990,15); (946531969,15);
(946463951,15); (946395936,15); (946327923,15); (946259914,15); (946191908,15); (946123904,15); (946055904,15); (945987907,15);
(945919912,15); (945851921,15); (945783933,15); (945715947,15); (945647965,15); (945579985,15); (945512009,15); (945444035,15);
(945376065,15); (945308097,15); (945240133,15); (945172172,15); (945104213,15); (945036257,15); (944968305,15); (944900355,15);
(944832409,15); (944764465,15); (944696525,15); (944628587,15); (944560652,15); (944492721,15); (944424792,15); (944356866,15);
(944288944,15); (944221024,15); (944153107,15); (944085194,15); (944017283,15); (943949375,15); (943881470,15); (943813569,15);
(943745670,15); (943677774,15); (943609881,15); (943541991,15); (943474104,15); (943406220,15); (943338339,15); (943270462,15);
(943202587,15); (943134715,15); (943066846,15); (942998980,15); (942931117,15); (942863257,15); (942795399,15); (942727545,15);
(942659694,15); (942591846,15); (942524001,15); (942456159,15); (942388320,15); (942320483,15); (942252650,15); (942184820,15);
(942116993,15); (942049168,15); (941981347,15); (941913529,15); (941845713,15); (941777901,15); (941710091,15); (941642285,15);
(941574481,15); (941506681,15); (941438883,15); (941371089,15); (941303297,15); (941235509,15); (941167723,15); (941099941,15);
(941032161,15); (940964384,15); (940896610,15); (940828840,15); (940761072,15); (940693307,15); (940625545,15); (940557787,15);
(940490031,15); (940422278,15); (940354528,15); (940286781,15); (940219037,15); (940151296,15); (940083558,15); (940015823,15);
(939948091,15); (939880362,15); (939812635,15); (939744912,15); (939677192,15); (939609475,15); (939541761,15); (939474049,15);
(939406341,15); (939338636,15); (939270933,15); (939203234,15); (939135537,15); (939067844,15); (939000153,15); (938932466,15);
(938864781,15); (938797100,15); (938729421,15); (938661745,15); (938594073,15); (938526403,15); (938458736,15); (938391073,15);
(938323412,15); (938255754,15); (938188099,15); (938120447,15); (938052798,15); (937985152,15); (937917509,15); (937849869,15);
(937782232,15); (937714598,15); (937646967,15); (937579338,15); (937511713,15); (937444091,15); (937376472,15); (937308855,15);
(937241242,15); (937173632,15); (937106024,15); (937038420,15); (936970818,15); (936903220,15); (936835624,15); (936768031,15);
(936700442,15); (936632855,15); (936565271,15); (936497690,15); (936430113,15); (936362538,15); (936294966,15); (936227397,15);
(936159831,15); (936092268,15); (936024708,15); (935957151,15); (935889597,15); (935822045,15); (935754497,15); (935686952,15);
(935619410,15); (935551870,15); (935484334,15); (935416801,15); (935349270,15); (935281743,15); (935214218,15); (935146697,15);
(935079178,15); (935011662,15); (934944149,15); (934876640,15); (934809133,15); (934741629,15); (934674128,15); (934606630,15);
(934539135,15); (934471643,15); (934404154,15); (934336668,15); (934269185,15); (934201705,15); (934134228,15); (934066753,15);
(933999282,15); (933931814,15); (933864348,15); (933796886,15); (933729426,15); (933661970,15); (933594516,15); (933527065,15);
(933459618,15); (933392173,15); (933324731,15); (933257292,15); (933189856,15); (933122424,15); (933054994,15); (932987567,15);
(932920142,15); (932852721,15); (932785303,15); (932717888,15); (932650476,15); (932583066,15); (932515660,15); (932448257,15);
(932380856,15); (932313459,15); (932246064,15); (932178672,15); (932111284,15); (932043898,15); (931976515,15); (931909135,15);
(931841758,15); (931774385,15); (931707014,15); (931639646,15); (931572280,15); (931504918,15); (931437559,15); (931370203,15);
(931302850,15); (931235499,15); (931168152,15); (931100807,15); (931033466,15); (930966127,15); (930898792,15); (930831459,15);
(930764129,15); (930696803,15); (930629479,15); (930562158,15); (930494840,15); (930427525,15); (930360213,15); (930292904,15);
(930225597,15); (930158294,15); (930090994,15); (930023697,15); (929956402,15); (929889111,15); (929821822,15); (929754537,15);
(929687254,15); (929619974,15); (929552698,15); (929485424,15); (929418153,15); (929350885,15); (929283620,15); (929216358,15);
(929149099,15); (929081843,15); (929014590,15); (928947339,15); (928880092,15); (928812848,15); (928745606,15); (928678368,15);
(928611132,15); (928543899,15); (928476670,15); (928409443,15); (928342219,15); (928274998,15); (928207780,15); (928140565,15);
(928073353,15); (928006144,15); (927938938,15); (927871735,15); (927804534,15); (927737337,15); (927670143,15); (927602951,15);
(927535762,15); (927468577,15); (927401394,15); (927334214,15); (927267038,15); (927199864,15); (927132693,15); (927065525,15);
(926998360,15); (926931197,15); (926864038,15); (926796882,15); (926729729,15); (926662578,15); (926595431,15); (926528286,15);
(926461144,15); (926394006,15); (926326870,15); (926259737,15); (926192607,15); (926125480,15); (926058356,15); (925991235,15);
(925924117,15); (925857002,15); (925789890,15); (925722780,15); (925655674,15); (925588570,15); (925521470,15); (925454372,15);
(925387277,15); (925320186,15); (925253097,15); (925186011,15); (925118928,15); (925051848,15); (924984771,15); (924917696,15);
(924850625,15); (924783557,15); (924716491,15); (924649429,15); (924582369,15); (924515313,15); (924448259,15); (924381208,15);
(924314160,15); (924247115,15); (924180073,15); (924113034,15); (924045998,15); (923978965,15); (923911934,15); (923844907,15);
(923777883,15); (923710861,15); (923643842,15); (923576827,15); (923509814,15); (923442804,15); (923375797,15); (923308793,15);
(923241792,15); (923174794,15); (923107799,15); (923040807,15); (922973817,15); (922906831,15); (922839847,15); (922772867,15);
(922705889,15); (922638914,15); (922571942,15); (922504974,15); (922438008,15); (922371045,15); (922304084,15); (922237127,15);
(922170173,15); (922103221,15); (922036273,15); (921969327,15); (921902385,15); (921835445,15); (921768508,15); (921701575,15);
(921634644,15); (921567716,15); (921500790,15); (921433868,15); (921366949,15); (921300033,15); (921233119,15); (921166209,15);
(921099301,15); (921032396,15); (920965495,15); (920898596,15); (920831700,15); (920764807,15); (920697917,15); (920631030,15);
(920564145,15); (920497264,15); (920430386,15); (920363510,15); (920296638,15); (920229768,15); (920162901,15); (920096037,15);
(920029176,15); (919962318,15); (919895463,15); (919828611,15); (919761762,15); (919694915,15); (919628072,15); (919561231,15);
(919494394,15); (919427559,15); (919360727,15); (919293898,15); (919227072,15); (919160249,15); (919093429,15); (919026612,15);
(918959798,15); (918892986,15); (918826178,15); (918759372,15); (918692569,15); (918625770,15); (918558973,15); (918492179,15);
(918425388,15); (918358600,15); (918291814,15); (918225032,15); (918158253,15); (918091476,15); (918024703,15); (917957932,15);
(917891164,15); (917824399,15); (917757637,15); (917690878,15); (917624122,15); (917557369,15); (917490619,15); (917423871,15);
(917357127,15); (917290385,15); (917223647,15); (917156911,15); (917090178,15); (917023448,15); (916956721,15); (916889997,15);
(916823275,15); (916756557,15); (916689842,15); (916623129,15); (916556419,15); (916489713,15); (916423009,15); (916356308,15);
(916289610,15); (916222915,15); (916156223,15); (916089533,15); (916022847,15); (915956163,15); (915889483,15); (915822805,15);
(915756130,15); (915689459,15); (915622790,15); (915556123,15); (915489460,15); (915422800,15); (915356143,15); (915289488,15);
(915222837,15); (915156188,15); (915089542,15); (915022899,15); (914956259,15); (914889622,15); (914822988,15); (914756357,15);
(914689728,15); (914623103,15); (914556480,15); (914489861,15); (914423244,15); (914356630,15); (914290019,15); (914223411,15);
(914156806,15); (914090203,15); (914023604,15); (913957008,15); (913890414,15); (913823823,15); (913757236,15); (913690651,15);
(913624069,15); (913557489,15); (913490913,15); (913424340,15); (913357770,15); (913291202,15); (913224637,15); (913158076,15);
(913091517,15); (913024961,15); (912958408,15); (912891858,15); (912825310,15); (912758766,15); (912692225,15); (912625686,15);
(912559150,15); (912492617,15); (912426088,15); (912359561,15); (912293036,15); (912226515,15); (912159997,15); (912093481,15);
(912026969,15); (911960459,15); (911893953,15); (911827449,15); (911760948,15); (911694450,15); (911627954,15); (911561462,15);
(911494973,15); (911428486,15); (911362002,15); (911295522,15); (911229044,15); (911162569,15); (911096097,15); (911029628,15);
(910963161,15); (910896698,15); (910830237,15); (910763780,15); (910697325,15); (910630873,15); (910564424,15); (910497978,15);
(910431535,15); (910365095,15); (910298657,15); (910232223,15); (910165791,15); (910099362,15); (910032936,15); (909966513,15);
(909900093,15); (909833676,15); (909767262,15); (909700850,15); (909634442,15); (909568036,15); (909501633,15); (909435233,15);
(909368836,15); (909302442,15); (909236051,15); (909169663,15); (909103277,15); (909036894,15); (908970515,15); (908904138,15);
(908837764,15); (908771393,15); (908705025,15); (908638659,15); (908572297,15); (908505937,15); (908439581,15); (908373227,15);
(908306876,15); (908240528,15); (908174183,15); (908107841,15); (908041501,15); (907975165,15); (907908831,15); (907842501,15);
(907776173,15); (907709848,15); (907643526,15); (907577206,15); (907510890,15); (907444577,15); (907378266,15); (907311958,15);
(907245653,15); (907179352,15); (907113052,15); (907046756,15); (906980463,15); (906914173,15); (906847885,15); (906781600,15);
(906715319,15); (906649040,15); (906582764,15); (906516490,15); (906450220,15); (906383953,15); (906317688,15); (906251426,15);
(906185168,15); (906118912,15); (906052659,15); (905986409,15); (905920161,15); (905853917,15); (905787675,15); (905721437,15);
(905655201,15); (905588968,15); (905522738,15); (905456511,15); (905390286,15); (905324065,15); (905257846,15); (905191631,15);
(905125418,15); (905059208,15); (904993001,15); (904926797,15); (904860595,15); (904794397,15); (904728201,15); (904662009,15);
(904595819,15); (904529632,15); (904463448,15); (904397267,15); (904331088,15); (904264913,15); (904198740,15); (904132570,15);
(904066404,15); (904000240,15); (903934078,15); (903867920,15); (903801765,15); (903735612,15); (903669463,15); (903603316,15);
(903537172,15); (903471031,15); (903404893,15); (903338757,15); (903272625,15); (903206495,15); (903140369,15); (903074245,15);
(903008124,15); (902942006,15); (902875890,15); (902809778,15); (902743668,15); (902677562,15); (902611458,15); (902545357,15);
(902479259,15); (902413164,15); (902347071,15); (902280982,15); (902214895,15); (902148812,15); (902082731,15); (902016653,15);
(901950578,15); (901884505,15); (901818436,15); (901752369,15); (901686306,15); (901620245,15); (901554187,15); (901488132,15);
(901422079,15); (901356030,15); (901289984,15); (901223940,15); (901157899,15); (901091861,15); (901025826,15); (900959794,15);
(900893764,15); (900827738,15); (900761714,15); (900695694,15); (900629676,15); (900563661,15); (900497648,15); (900431639,15);
(900365633,15); (900299629,15); (900233628,15); (900167630,15); (900101635,15); (900035643,15); (899969654,15); (899903667,15);
(899837684,15); (899771703,15); (899705725,15); (899639750,15); (899573778,15); (899507808,15); (899441842,15); (899375878,15);
(899309918,15); (899243960,15); (899178005,15); (899112052,15); (899046103,15); (898980157,15); (898914213,15); (898848272,15);
(898782334,15); (898716399,15); (898650467,15); (898584538,15); (898518611,15); (898452687,15); (898386767,15); (898320849,15);
(898254934,15); (898189021,15); (898123112,15); (898057205,15); (897991302,15); (897925401,15); (897859503,15); (897793608,15);
(897727716,15); (897661826,15); (897595940,15); (897530056,15); (897464175,15); (897398297,15); (897332422,15); (897266549,15);
(897200680,15); (897134813,15); (897068950,15); (897003089,15); (896937231,15); (896871375,15); (896805523,15); (896739674,15);
(896673827,15); (896607983,15); (896542142,15); (896476304,15); (896410469,15); (896344636,15); (896278807,15); (896212980,15);
(896147156,15); (896081335,15); (896015517,15); (895949701,15); (895883889,15); (895818079,15); (895752272,15); (895686469,15);
(895620667,15); (895554869,15); (895489074,15); (895423281,15); (895357491,15); (895291704,15); (895225920,15); (895160139,15);
(895094361,15); (895028585,15); (894962813,15); (894897043,15); (894831276,15); (894765512,15); (894699750,15); (894633992,15);
(894568236,15); (894502484,15); (894436734,15); (894370987,15); (894305242,15); (894239501,15); (894173762,15); (894108027,15);
(894042294,15); (893976564,15); (893910837,15); (893845112,15); (893779391,15); (893713672,15); (893647956,15); (893582243,15);
(893516533,15); (893450826,15); (893385121,15); (893319420,15); (893253721,15); (893188025,15); (893122332,15); (893056641,15);
(892990954,15); (892925269,15); (892859588,15); (892793909,15); (892728233,15); (892662559,15); (892596889,15); (892531221,15);
(892465557,15); (892399895,15); (892334236,15); (892268579,15); (892202926,15); (892137275,15); (892071628,15); (892005983,15);
(891940341,15); (891874702,15); (891809065,15); (891743432,15); (891677801,15); (891612173,15); (891546548,15); (891480926,15);
(891415306,15); (891349690,15); (891284076,15); (891218465,15); (891152857,15); (891087252,15); (891021650,15); (890956050,15);
(890890453,15); (890824860,15); (890759269,15); (890693680,15); (890628095,15); (890562512,15); (890496933,15); (890431356,15);
(890365782,15); (890300210,15); (890234642,15); (890169076,15); (890103514,15); (890037954,15); (889972397,15); (889906843,15);
(889841291,15); (889775743,15); (889710197,15); (889644654,15); (889579114,15); (889513576,15); (889448042,15); (889382510,15);
(889316982,15); (889251456,15); (889185933,15); (889120412,15); (889054895,15); (888989380,15); (888923868,15); (888858359,15);
(888792853,15); (888727350,15); (888661849,15); (888596352,15); (888530857,15); (888465365,15); (888399875,15); (888334389,15);
(888268905,15); (888203425,15); (888137947,15); (888072472,15); (888006999,15); (887941530,15); (887876063,15); (887810600,15);
(887745139,15); (887679680,15); (887614225,15); (887548773,15); (887483323,15); (887417876,15); (887352432,15); (887286991,15);
(887221553,15); (887156117,15); (887090684,15); (887025254,15); (886959827,15); (886894403,15); (886828981,15); (886763563,15);
(886698147,15); (886632734,15); (886567324,15); (886501916,15); (886436512,15); (886371110,15); (886305711,15); (886240315,15);
(886174922,15); (886109532,15); (886044144,15); (885978759,15); (885913377,15); (885847998,15); (885782622,15); (885717248,15);
(885651877,15); (885586510,15); (885521144,15); (885455782,15); (885390423,15); (885325066,15); (885259712,15); (885194361,15);
(885129013,15); (885063668,15); (884998325,15); (884932986,15); (884867649,15); (884802315,15); (884736983,15); (884671655,15);
(884606329,15); (884541006,15); (884475686,15); (884410369,15); (884345055,15); (884279743,15); (884214434,15); (884149128,15);
(884083825,15); (884018525,15); (883953227,15); (883887933,15); (883822641,15); (883757352,15); (883692066,15); (883626782,15);
(883561501,15); (883496224,15); (883430949,15); (883365676,15); (883300407,15); (883235140,15); (883169877,15); (883104616,15);
(883039358,15); (882974102,15); (882908850,15); (882843600,15); (882778353,15); (882713109,15); (882647868,15); (882582629,15);
(882517394,15); (882452161,15); (882386931,15); (882321703,15); (882256479,15); (882191257,15); (882126039,15); (882060823,15);
(881995609,15); (881930399,15); (881865191,15); (881799987,15); (881734785,15); (881669585,15); (881604389,15); (881539196,15);
(881474005,15); (881408817,15); (881343632,15); (881278449,15); (881213270,15); (881148093,15); (881082919,15); (881017748,15);
(880952580,15); (880887414,15); (880822252,15); (880757092,15); (880691935,15); (880626780,15); (880561629,15); (880496480,15);
(880431334,15); (880366191,15); (880301051,15); (880235914,15); (880170779,15); (880105647,15); (880040518,15); (879975392,15);
(879910268,15); (879845148,15); (879780030,15); (879714915,15); (879649802,15); (879584693,15); (879519586,15); (879454483,15);
(879389381,15); (879324283,15); (879259188,15); (879194095,15); (879129005,15); (879063918,15); (878998834,15); (878933753,15);
(878868674,15); (878803598,15); (878738525,15); (878673455,15); (878608387,15); (878543323,15); (878478261,15); (878413202,15);
(878348145,15); (878283092,15); (878218041,15); (878152993,15); (878087948,15); (878022906,15); (877957867,15); (877892830,15);
(877827796,15); (877762765,15); (877697737,15); (877632711,15); (877567688,15); (877502669,15); (877437651,15); (877372637,15);
(877307626,15); (877242617,15); (877177611,15); (877112608,15); (877047607,15); (876982610,15); (876917615,15); (876852623,15);
(876787634,15); (876722648,15); (876657664,15); (876592683,15); (876527705,15); (876462730,15); (876397758,15); (876332788,15);
(876267821,15); (876202857,15); (876137896,15); (876072937,15); (876007982,15); (875943029,15); (875878079,15); (875813131,15);
(875748187,15); (875683245,15); (875618306,15); (875553370,15); (875488437,15); (875423506,15); (875358578,15); (875293653,15);
(875228731,15); (875163812,15); (875098895,15); (875033981,15); (874969070,15); (874904162,15); (874839257,15); (874774354,15);
(874709454,15); (874644557,15); (874579663,15); (874514771,15); (874449882,15); (874384996,15); (874320113,15); (874255233,15);
(874190355,15); (874125481,15); (874060608,15); (873995739,15); (873930873,15); (873866009,15); (873801148,15); (873736290,15);
(873671435,15); (873606582,15); (873541733,15); (873476886,15); (873412041,15); (873347200,15); (873282361,15); (873217526,15);
(873152693,15); (873087862,15); (873023035,15); (872958210,15); (872893388,15); (872828569,15); (872763753,15); (872698939,15);
(872634128,15); (872569320,15); (872504515,15); (872439713,15); (872374913,15); (872310116,15); (872245322,15); (872180531,15);
(872115742,15); (872050956,15); (871986173,15); (871921393,15); (871856616,15); (871791841,15); (871727069,15); (871662300,15);
(871597534,15); (871532770,15); (871468010,15); (871403252,15); (871338497,15); (871273744,15); (871208995,15); (871144248,15);
(871079504,15); (871014762,15); (870950024,15); (870885288,15); (870820555,15); (870755825,15); (870691097,15); (870626373,15);
(870561651,15); (870496932,15); (870432216,15); (870367502,15); (870302791,15); (870238083,15); (870173378,15); (870108676,15);
(870043976,15); (869979279,15); (869914585,15); (869849894,15); (869785205,15); (869720519,15); (869655836,15); (869591156,15);
(869526478,15); (869461804,15); (869397132,15); (869332463,15); (869267796,15); (869203133,15); (869138472,15); (869073814,15);
(869009158,15); (868944506,15); (868879856,15); (868815209,15); (868750565,15); (868685924,15); (868621285,15); (868556649,15);
(868492016,15); (868427386,15); (868362758,15); (868298133,15); (868233511,15); (868168892,15); (868104275,15); (868039662,15);
(867975051,15); (867910442,15); (867845837,15); (867781234,15); (867716634,15); (867652037,15); (867587443,15); (867522851,15);
(867458262,15); (867393676,15); (867329093,15); (867264513,15); (867199935,15); (867135360,15); (867070788,15); (867006218,15);
(866941651,15); (866877087,15); (866812526,15); (866747968,15); (866683412,15); (866618859,15); (866554309,15); (866489762,15);
(866425217,15); (866360676,15); (866296137,15); (866231600,15); (866167067,15); (866102536,15); (866038008,15); (865973483,15);
(865908960,15); (865844441,15); (865779924,15); (865715410,15); (865650898,15); (865586389,15); (865521884,15); (865457380,15);
(865392880,15); (865328382,15); (865263888,15); (865199396,15); (865134906,15); (865070420,15); (865005936,15); (864941455,15);
(864876977,15); (864812501,15); (864748028,15); (864683558,15); (864619091,15); (864554627,15); (864490165,15); (864425706,15);
(864361250,15); (864296796,15); (864232346,15); (864167898,15); (864103452,15); (864039010,15); (863974570,15); (863910134,15);
(863845699,15); (863781268,15); (863716839,15); (863652414,15); (863587990,15); (863523570,15); (863459152,15); (863394738,15);
(863330326,15); (863265916,15); (863201510,15); (863137106,15); (863072705,15); (863008306,15); (862943911,15); (862879518,15);
(862815128,15); (862750741,15); (862686356,15); (862621974,15); (862557595,15); (862493219,15); (862428846,15); (862364475,15);
(862300107,15); (862235742,15); (862171379,15); (862107019,15); (862042662,15); (861978308,15); (861913957,15); (861849608,15);
(861785262,15); (861720919,15); (861656578,15); (861592240,15); (861527905,15); (861463573,15); (861399244,15); (861334917,15);
(861270593,15); (861206272,15); (861141953,15); (861077638,15); (861013325,15); (860949014,15); (860884707,15); (860820402,15);
(860756100,15); (860691801,15); (860627504,15); (860563211,15); (860498920,15); (860434631,15); (860370346,15); (860306063,15);
(860241783,15); (860177506,15); (860113231,15); (860048960,15); (859984691,15); (859920424,15); (859856161,15); (859791900,15);
(859727642,15); (859663387,15); (859599134,15); (859534885,15); (859470638,15); (859406393,15); (859342152,15); (859277913,15);
(859213677,15); (859149443,15); (859085213,15); (859020985,15); (858956760,15); (858892538,15); (858828318,15); (858764101,15);
(858699887,15); (858635676,15); (858571467,15); (858507261,15); (858443058,15); (858378858,15); (858314660,15); (858250465,15);
(858186273,15); (858122084,15); (858057897,15); (857993713,15); (857929532,15); (857865353,15); (857801178,15); (857737005,15);
(857672834,15); (857608667,15); (857544502,15); (857480340,15); (857416181,15); (857352024,15); (857287870,15); (857223719,15);
(857159571,15); (857095425,15); (857031283,15); (856967142,15); (856903005,15); (856838870,15); (856774739,15); (856710609,15);
(856646483,15); (856582359,15); (856518238,15); (856454120,15); (856390005,15); (856325892,15); (856261782,15); (856197675,15);
(856133570,15); (856069468,15); (856005369,15); (855941273,15); (855877180,15); (855813089,15); (855749001,15); (855684915,15);
(855620833,15); (855556753,15); (855492676,15); (855428601,15); (855364529,15); (855300460,15); (855236394,15); (855172331,15);
(855108270,15); (855044212,15); (854980157,15); (854916104,15); (854852054,15); (854788007,15); (854723963,15); (854659921,15);
(854595882,15); (854531846,15); (854467813,15); (854403782,15); (854339754,15); (854275729,15); (854211706,15); (854147686,15);
(854083669,15); (854019655,15); (853955644,15); (853891635,15); (853827629,15); (853763625,15); (853699624,15); (853635627,15);
(853571631,15); (853507639,15); (853443649,15); (853379662,15); (853315678,15); (853251696,15); (853187717,15); (853123741,15);
(853059768,15); (852995797,15); (852931829,15); (852867864,15); (852803902,15); (852739942,15); (852675985,15); (852612031,15);
(852548079,15); (852484130,15); (852420184,15); (852356241,15); (852292300,15); (852228362,15); (852164427,15); (852100494,15);
(852036565,15); (851972638,15); (851908713,15); (851844792,15); (851780873,15); (851716957,15); (851653043,15); (851589133,15);
(851525225,15); (851461319,15); (851397417,15); (851333517,15); (851269620,15); (851205726,15); (851141834,15); (851077945,15);
(851014059,15); (850950176,15); (850886295,15); (850822417,15); (850758542,15); (850694669,15); (850630799,15); (850566932,15);
(850503068,15); (850439206,15); (850375347,15); (850311491,15); (850247637,15); (850183786,15); (850119938,15); (850056093,15);
(849992250,15); (849928410,15); (849864573,15); (849800739,15); (849736907,15); (849673078,15); (849609252,15); (849545428,15);
(849481607,15); (849417789,15); (849353973,15); (849290161,15); (849226351,15); (849162543,15); (849098739,15); (849034937,15);
(848971138,15); (848907341,15); (848843548,15); (848779757,15); (848715968,15); (848652183,15); (848588400,15); (848524620,15);
(848460842,15); (848397068,15); (848333296,15); (848269526,15); (848205760,15); (848141996,15); (848078235,15); (848014476,15);
(847950721,15); (847886968,15); (847823217,15); (847759470,15); (847695725,15); (847631983,15); (847568243,15); (847504507,15);
(847440773,15); (847377041,15); (847313313,15); (847249587,15); (847185864,15); (847122143,15); (847058426,15); (846994711,15);
(846930998,15); (846867289,15); (846803582,15); (846739878,15); (846676176,15); (846612477,15); (846548781,15); (846485088,15);
(846421397,15); (846357710,15); (846294024,15); (846230342,15); (846166662,15); (846102985,15); (846039311,15); (845975639,15);
(845911970,15); (845848304,15); (845784640,15); (845720979,15); (845657321,15); (845593666,15); (845530013,15); (845466363,15);
(845402716,15); (845339071,15); (845275430,15); (845211790,15); (845148154,15); (845084520,15); (845020889,15); (844957261,15);
(844893635,15); (844830012,15); (844766392,15); (844702774,15); (844639160,15); (844575548,15); (844511938,15); (844448331,15);
(844384727,15); (844321126,15); (844257528,15); (844193932,15); (844130338,15); (844066748,15); (844003160,15); (843939575,15);
(843875993,15); (843812413,15); (843748836,15); (843685262,15); (843621690,15); (843558121,15); (843494555,15); (843430992,15);
(843367431,15); (843303873,15); (843240318,15); (843176765,15); (843113215,15); (843049668,15); (842986123,15); (842922581,15);
(842859042,15); (842795506,15); (842731972,15); (842668441,15); (842604913,15); (842541387,15); (842477864,15); (842414344,15);
(842350826,15); (842287312,15); (842223799,15); (842160290,15); (842096783,15); (842033279,15); (841969778,15); (841906279,15);
(841842783,15); (841779290,15); (841715799,15); (841652311,15); (841588826,15); (841525344,15); (841461864,15); (841398387,15);
(841334913,15); (841271441,15); (841207972,15); (841144506,15); (841081042,15); (841017581,15); (840954123,15); (840890667,15);
(840827214,15); (840763764,15); (840700317,15); (840636872,15); (840573430,15); (840509991,15); (840446554,15); (840383120,15)].

(** entries 47104..49151 *)
Definition RECIPROCAL_23 : list (Z * Z) := [
(840319689,15); (840256260,15); (840192834,15); (840129411,15); (840065991,15); (840002573,15); (839939158,15); (839875745,15);
(839812336,15); (839748929,15); (839685524,15); (839622123,15); (839558724,15); (839495327,15); (839431934,15); (839368543,15);
(839305155,15); (839241769,15); (839178386,15); (839115006,15); (839051629,15); (838988254,15); (838924882,15); (838861513,15);
(838798146,15); (838734782,15); (838671421,15); (838608062,15); (838544706,15); (838481353,15); (838418002,15); (838354654,15);
(838291309,15); (838227967,15); (838164627,15); (838101290,15); (838037955,15); (837974624,15); (837911294,15); (837847968,15);
(837784644,15); (837721323,15); (837658005,15); (837594690,15); (837531377,15); (837468066,15); (837404759,15); (837341454,15);
(837278152,15); (837214852,15); (837151555,15); (837088261,15); (837024970,15); (836961681,15); (836898395,15); (836835111,15);
(836771831,15); (836708553,15); (836645277,15); (836582005,15); (836518735,15); (836455467,15); (836392203,15); (836328941,15);
(836265682,15); (836202425,15); (836139171,15); (836075920,15); (836012671,15); (835949426,15); (835886182,15); (835822942,15);
(835759704,15); (835696469,15); (835633237,15); (835570007,15); (835506780,15); (835443555,15); (835380334,15); (835317115,15);
(835253898,15); (835190684,15); (835127473,15); (835064265,15); (835001060,15); (834937857,15); (834874656,15); (834811459,15);
(834748264,15); (834685071,15); (834621882,15); (834558695,15); (834495511,15); (834432329,15); (834369150,15); (834305974,15);
(834242801,15); (834179630,15); (834116462,15); (834053296,15); (833990133,15); (833926973,15); (833863816,15); (833800661,15);
(833737509,15); (833674360,15); (833611213,15); (833548069,15); (833484927,15); (833421789,15); (833358653,15); (833295519,15);
(833232388,15); (833169260,15); (833106135,15); (833043012,15); (832979892,15); (832916775,15); (832853660,15); (832790548,15);
(832727439,15); (832664332,15); (832601229,15); (832538127,15); (832475029,15); (832411933,15); (832348839,15); (832285749,15);
(832222661,15); (832159576,15); (832096493,15); (832033413,15); (831970336,15); (831907261,15); (831844189,15); (831781120,15);
(831718054,15); (831654990,15); (831591928,15); (831528870,15); (831465814,15); (831402761,15); (831339710,15); (831276662,15);
(831213617,15); (831150575,15); (831087535,15); (831024497,15); (830961463,15); (830898431,15); (830835402,15); (830772375,15);
(830709351,15); (830646330,15); (830583312,15); (830520296,15); (830457283,15); (830394272,15); (830331264,15); (830268259,15);
(830205256,15); (830142257,15); (830079259,15); (830016265,15); (829953273,15); (829890284,15); (829827297,15); (829764313,15);
(829701332,15); (829638354,15); (829575378,15); (829512404,15); (829449434,15); (829386466,15); (829323501,15); (829260538,15);
(829197578,15); (829134621,15); (829071666,15); (829008715,15); (828945765,15); (828882819,15); (828819875,15); (828756934,15);
(828693995,15); (828631059,15); (828568126,15); (828505195,15); (828442267,15); (828379342,15); (828316419,15); (828253499,15);
(828190582,15); (828127667,15); (828064755,15); (828001846,15); (827938939,15); (827876035,15); (827813134,15); (827750235,15);
(827687339,15); (827624446,15); (827561555,15); (827498667,15); (827435782,15); (827372899,15); (827310019,15); (827247141,15);
(827184267,15); (827121395,15); (827058525,15); (826995658,15); (826932794,15); (826869933,15); (826807074,15); (826744218,15);
(826681364,15); (826618513,15); (826555665,15); (826492820,15); (826429977,15); (826367137,15); (826304299,15); (826241464,15);
(826178632,15); (826115802,15); (826052975,15); (825990151,15); (825927329,15); (825864510,15); (825801694,15); (825738880,15);
(825676069,15); (825613261,15); (825550455,15); (825487652,15); (825424852,15); (825362054,15); (825299259,15); (825236466,15);
(825173677,15); (825110890,15); (825048105,15); (824985323,15); (824922544,15); (824859767,15); (824796994,15); (824734222,15);
(824671454,15); (824608688,15); (824545925,15); (824483164,15); (824420406,15); (824357651,15); (824294898,15); (824232148,15);
(824169401,15); (824106656,15); (824043914,15); (823981174,15); (823918438,15); (823855703,15); (823792972,15); (823730243,15);
(823667517,15); (823604793,15); (823542072,15); (823479354,15); (823416639,15); (823353926,15); (823291215,15); (823228508,15);
(823165803,15); (823103100,15); (823040401,15); (822977704,15); (822915009,15); (822852317,15); (822789628,15); (822726942,15);
(822664258,15); (822601577,15); (822538898,15); (822476222,15); (822413549,15); (822350879,15); (822288211,15); (822225545,15);
(822162883,15); (822100223,15); (822037565,15); (821974910,15); (821912258,15); (821849609,15); (821786962,15); (821724318,15);
(821661676,15); (821599038,15); (821536401,15); (821473768,15); (821411137,15); (821348509,15); (821285883,15); (821223260,15);
(821160639,15); (821098022,15); (821035407,15); (820972794,15); (820910184,15); (820847577,15); (820784973,15); (820722371,15);
(820659772,15); (820597175,15); (820534581,15); (820471990,15); (820409401,15); (820346815,15); (820284231,15); (820221651,15);
(820159073,15); (820096497,15); (820033924,15); (819971354,15); (819908786,15); (819846221,15); (819783659,15); (819721100,15);
(819658542,15); (819595988,15); (819533436,15); (819470887,15); (819408341,15); (819345797,15); (819283256,15); (819220717,15);
(819158181,15); (819095648,15); (819033117,15); (818970589,15); (818908064,15); (818845541,15); (818783021,15); (818720504,15);
(818657989,15); (818595477,15); (818532967,15); (818470460,15); (818407956,15); (818345454,15); (818282955,15); (818220459,15);
(818157965,15); (818095474,15); (818032985,15); (817970499,15); (817908016,15); (817845536,15); (817783058,15); (817720582,15);
(817658110,15); (817595639,15); (817533172,15); (817470707,15); (817408245,15); (817345786,15); (817283329,15); (817220874,15);
(817158423,15); (817095974,15); (817033527,15); (816971084,15); (816908642,15); (816846204,15); (816783768,15); (816721335,15);
(816658904,15); (816596476,15); (816534051,15); (816471628,15); (816409208,15); (816346791,15); (816284376,15); (816221964,15);
(816159554,15); (816097147,15); (816034743,15); (815972341,15); (815909942,15); (815847546,15); (815785152,15); (815722761,15);
(815660372,15); (815597986,15); (815535603,15); (815473222,15); (815410844,15); (815348469,15); (815286096,15); (815223726,15);
(815161358,15); (815098993,15); (815036631,15); (814974271,15); (814911914,15); (814849560,15); (814787208,15); (814724859,15);
(814662513,15); (814600169,15); (814537827,15); (814475489,15); (814413153,15); (814350819,15); (814288488,15); (814226160,15);
(814163835,15); (814101512,15); (814039192,15); (813976874,15); (813914559,15); (813852246,15); (813789937,15); (813727629,15);
(813665325,15); (813603023,15); (813540724,15); (813478427,15); (813416133,15); (813353841,15); (813291552,15); (813229266,15);
(813166983,15); (813104702,15); (813042423,15); (812980148,15); (812917874,15); (812855604,15); (812793336,15); (812731071,15);
(812668808,15); (812606548,15); (812544291,15); (812482036,15); (812419784,15); (812357534,15); (812295287,15); (812233043,15);
(812170801,15); (812108562,15); (812046326,15); (811984092,15); (811921861,15); (811859632,15); (811797406,15); (811735183,15);
(811672962,15); (811610744,15); (811548529,15); (811486316,15); (811424105,15); (811361898,15); (811299693,15); (811237490,15);
(811175290,15); (811113093,15); (811050899,15); (810988707,15); (810926517,15); (810864330,15); (810802146,15); (810739965,15);
(810677786,15); (810615610,15); (810553436,15); (810491265,15); (810429096,15); (810366931,15); (810304767,15); (810242607,15);
(810180449,15); (810118293,15); (810056141,15); (809993990,15); (809931843,15); (809869698,15); (809807556,15); (809745416,15);
(809683279,15); (809621144,15); (809559012,15); (809496883,15); (809434756,15); (809372632,15); (809310511,15); (809248392,15);
(809186276,15); (809124162,15); (809062051,15); (808999943,15); (808937837,15); (808875734,15); (808813633,15); (808751535,15);
(808689440,15); (808627347,15); (808565257,15); (808503170,15); (808441085,15); (808379003,15); (808316923,15); (808254846,15);
(808192771,15); (808130699,15); (808068630,15); (808006563,15); (807944499,15); (807882438,15); (807820379,15); (807758323,15);
(807696269,15); (807634218,15); (807572170,15); (807510124,15); (807448081,15); (807386040,15); (807324002,15); (807261967,15);
(807199934,15); (807137904,15); (807075876,15); (807013851,15); (806951829,15); (806889809,15); (806827792,15); (806765777,15);
(806703766,15); (806641756,15); (806579749,15); (806517745,15); (806455744,15); (806393745,15); (806331748,15); (806269755,15);
(806207764,15); (806145775,15); (806083789,15); (806021806,15); (805959825,15); (805897847,15); (805835871,15); (805773899,15);
(805711928,15); (805649960,15); (805587995,15); (805526033,15); (805464073,15); (805402116,15); (805340161,15); (805278209,15);
(805216259,15); (805154312,15); (805092368,15); (805030426,15); (804968487,15); (804906551,15); (804844617,15); (804782685,15);
(804720757,15); (804658831,15); (804596907,15); (804534986,15); (804473068,15); (804411152,15); (804349239,15); (804287328,15);
(804225420,15); (804163515,15); (804101612,15); (804039712,15); (803977815,15); (803915920,15); (803854027,15); (803792137,15);
(803730250,15); (803668366,15); (803606484,15); (803544604,15); (803482727,15); (803420853,15); (803358982,15); (803297113,15);
(803235246,15); (803173382,15); (803111521,15); (803049663,15); (802987806,15); (802925953,15); (802864102,15); (802802254,15);
(802740408,15); (802678565,15); (802616725,15); (802554887,15); (802493051,15); (802431219,15); (802369389,15); (802307561,15);
(802245736,15); (802183914,15); (802122094,15); (802060277,15); (801998462,15); (801936650,15); (801874841,15); (801813034,15);
(801751230,15); (801689428,15); (801627629,15); (801565833,15); (801504039,15); (801442248,15); (801380459,15); (801318673,15);
(801256890,15); (801195109,15); (801133330,15); (801071555,15); (801009782,15); (800948011,15); (800886243,15); (800824478,15);
(800762715,15); (800700955,15); (800639197,15); (800577442,15); (800515690,15); (800453940,15); (800392193,15); (800330448,15);
(800268706,15); (800206966,15); (800145229,15); (800083495,15); (800021763,15); (799960034,15); (799898308,15); (799836584,15);
(799774862,15); (799713143,15); (799651427,15); (799589714,15); (799528002,15); (799466294,15); (799404588,15); (799342885,15);
(799281184,15); (799219486,15); (799157790,15); (799096097,15); (799034407,15); (798972719,15); (798911034,15); (798849351,15);
(798787671,15); (798725994,15); (798664319,15); (798602647,15); (798540977,15); (798479310,15); (798417645,15); (798355983,15);
(798294324,15); (798232667,15); (798171013,15); (798109361,15); (798047712,15); (797986065,15); (797924422,15); (797862780,15);
(797801141,15); (797739505,15); (797677872,15); (797616241,15); (797554612,15); (797492986,15); (797431363,15); (797369742,15);
(797308124,15); (797246509,15); (797184896,15); (797123285,15); (797061678,15); (797000072,15); (796938470,15); (796876870,15);
(796815272,15); (796753677,15); (796692085,15); (796630495,15); (796568908,15); (796507323,15); (796445741,15); (796384162,15);
(796322585,15); (796261011,15); (796199439,15); (796137870,15); (796076303,15); (796014739,15); (795953178,15); (795891619,15);
(795830062,15); (795768509,15); (795706958,15); (795645409,15); (795583863,15); (795522320,15); (795460779,15); (795399241,15);
(795337705,15); (795276172,15); (795214641,15); (795153113,15); (795091588,15); (795030065,15); (794968545,15); (794907027,15);
(794845512,15); (794783999,15); (794722489,15); (794660982,15); (794599477,15); (794537975,15); (794476475,15); (794414978,15);
(794353484,15); (794291992,15); (794230502,15); (794169015,15); (794107531,15); (794046050,15); (793984570,15); (793923094,15);
(793861620,15); (793800149,15); (793738680,15); (793677213,15); (793615750,15); (793554289,15); (793492830,15); (793431374,15);
(793369921,15); (793308470,15); (793247021,15); (793185576,15); (793124133,15); (793062692,15); (793001254,15); (792939819,15);
(792878386,15); (792816955,15); (792755528,15); (792694102,15); (792632680,15); (792571260,15); (792509842,15); (792448427,15);
(792387015,15); (792325605,15); (792264198,15); (792202793,15); (792141391,15); (792079992,15); (792018595,15); (791957200,15);
(791895809,15); (791834419,15); (791773033,15); (791711648,15); (791650267,15); (791588888,15); (791527511,15); (791466138,15);
(791404766,15); (791343397,15); (791282031,15); (791220668,15); (791159307,15); (791097948,15); (791036592,15); (790975239,15);
(790913888,15); (790852540,15); (790791194,15); (790729851,15); (790668510,15); (790607172,15); (790545837,15); (790484504,15);
(790423174,15); (790361846,15); (790300521,15); (790239198,15); (790177878,15); (790116560,15); (790055245,15); (789993933,15);
(789932623,15); (789871316,15); (789810011,15); (789748709,15); (789687409,15); (789626112,15); (789564818,15); (789503526,15);
(789442236,15); (789380950,15); (789319665,15); (789258384,15); (789197104,15); (789135828,15); (789074554,15); (789013282,15);
(788952013,15); (788890747,15); (788829483,15); (788768222,15); (788706963,15); (788645707,15); (788584454,15); (788523203,15);
(788461954,15); (788400708,15); (788339465,15); (788278224,15); (788216986,15); (788155750,15); (788094517,15); (788033286,15);
(787972058,15); (787910833,15); (787849610,15); (787788389,15); (787727172,15); (787665956,15); (787604744,15); (787543533,15);
(787482326,15); (787421121,15); (787359918,15); (787298718,15); (787237521,15); (787176326,15); (787115134,15); (787053944,15);
(786992757,15); (786931572,15); (786870390,15); (786809211,15); (786748034,15); (786686859,15); (786625687,15); (786564518,15);
(786503351,15); (786442187,15); (786381025,15); (786319866,15); (786258710,15); (786197556,15); (786136404,15); (786075255,15);
(786014109,15); (785952965,15); (785891824,15); (785830685,15); (785769549,15); (785708415,15); (785647284,15); (785586155,15);
(785525029,15); (785463906,15); (785402785,15); (785341667,15); (785280551,15); (785219438,15); (785158327,15); (785097219,15);
(785036113,15); (784975010,15); (784913910,15); (784852812,15); (784791716,15); (784730623,15); (784669533,15); (784608445,15);
(784547360,15); (784486277,15); (784425197,15); (784364119,15); (784303044,15); (784241972,15); (784180902,15); (784119834,15);
(784058769,15); (783997707,15); (783936647,15); (783875590,15); (783814535,15); (783753483,15); (783692434,15); (783631386,15);
(783570342,15); (783509300,15); (783448260,15); (783387224,15); (783326189,15); (783265157,15); (783204128,15); (783143101,15);
(783082077,15); (783021055,15); (782960036,15); (782899020,15); (782838006,15); (782776994,15); (782715985,15); (782654979,15);
(782593975,15); (782532973,15); (782471975,15); (782410978,15); (782349985,15); (782288993,15); (782228005,15); (782167019,15);
(782106035,15); (782045054,15); (781984076,15); (781923100,15); (781862126,15); (781801155,15); (781740187,15); (781679221,15);
(781618258,15); (781557297,15); (781496339,15); (781435383,15); (781374430,15); (781313480,15); (781252532,15); (781191586,15);
(781130643,15); (781069703,15); (781008765,15); (780947830,15); (780886897,15); (780825966,15); (780765039,15); (780704113,15);
(780643191,15); (780582271,15); (780521353,15); (780460438,15); (780399525,15); (780338615,15); (780277708,15); (780216803,15);
(780155901,15); (780095001,15); (780034103,15); (779973209,15); (779912316,15); (779851427,15); (779790539,15); (779729655,15);
(779668773,15); (779607893,15); (779547016,15); (779486141,15); (779425269,15); (779364400,15); (779303533,15); (779242668,15);
(779181807,15); (779120947,15); (779060090,15); (778999236,15); (778938384,15); (778877535,15); (778816688,15); (778755844,15);
(778695003,15); (778634163,15); (778573327,15); (778512493,15); (778451661,15); (778390832,15); (778330006,15); (778269182,15);
(778208361,15); (778147542,15); (778086725,15); (778025912,15); (777965100,15); (777904291,15); (777843485,15); (777782682,15);
(777721880,15); (777661082,15); (777600286,15); (777539492,15); (777478701,15); (777417912,15); (777357126,15); (777296343,15);
(777235562,15); (777174783,15); (777114008,15); (777053234,15); (776992463,15); (776931695,15); (776870929,15); (776810166,15);
(776749405,15); (776688647,15); (776627891,15); (776567138,15); (776506387,15); (776445639,15); (776384894,15); (776324150,15);
(776263410,15); (776202672,15); (776141936,15); (776081203,15); (776020473,15); (775959745,15); (775899020,15); (775838297,15);
(775777576,15); (775716858,15); (775656143,15); (775595430,15); (775534720,15); (775474012,15); (775413307,15); (775352604,15);
(775291904,15); (775231206,15); (775170511,15); (775109819,15); (775049128,15); (774988441,15); (774927756,15); (774867073,15);
(774806393,15); (774745716,15); (774685041,15); (774624368,15); (774563698,15); (774503031,15); (774442366,15); (774381703,15);
(774321043,15); (774260386,15); (774199731,15); (774139079,15); (774078429,15); (774017782,15); (773957137,15); (773896495,15);
(773835855,15); (773775218,15); (773714583,15); (773653951,15); (773593321,15); (773532694,15); (773472069,15); (773411447,15);
(773350828,15); (773290211,15); (773229596,15); (773168984,15); (773108374,15); (773047767,15); (772987163,15); (772926561,15);
(772865961,15); (772805365,15); (772744770,15); (772684178,15); (772623589,15); (772563002,15); (772502417,15); (772441836,15);
(772381256,15); (772320679,15); (772260105,15); (772199533,15); (772138964,15); (772078397,15); (772017833,15); (771957271,15);
(771896712,15); (771836155,15); (771775601,15); (771715049,15); (771654500,15); (771593953,15); (771533409,15); (771472867,15);
(771412328,15); (771351791,15); (771291257,15); (771230726,15); (771170196,15); (771109670,15); (771049146,15); (770988624,15);
(770928105,15); (770867588,15); (770807074,15); (770746563,15); (770686054,15); (770625547,15); (770565043,15); (770504542,15);
(770444043,15); (770383546,15); (770323052,15); (770262561,15); (770202072,15); (770141585,15); (770081101,15); (770020620,15);
(769960141,15); (769899665,15); (769839191,15); (769778719,15); (769718250,15); (769657784,15); (769597320,15); (769536859,15);
(769476400,15); (769415943,15); (769355489,15); (769295038,15); (769234589,15); (769174143,15); (769113699,15); (769053258,15);
(768992819,15); (768932382,15); (768871949,15); (768811517,15); (768751088,15); (768690662,15); (768630238,15); (768569817,15);
(768509398,15); (768448982,15); (768388568,15); (768328157,15); (768267748,15); (768207342,15); (768146938,15); (768086537,15);
(768026138,15); (767965742,15); (767905348,15); (767844956,15); (767784568,15); (767724181,15); (767663798,15); (767603416,15);
(767543038,15); (767482661,15); (767422288,15); (767361916,15); (767301547,15); (767241181,15); (767180817,15); (767120456,15);
(767060097,15); (766999741,15); (766939387,15); (766879036,15); (766818687,15); (766758341,15); (766697997,15); (766637656,15);
(766577317,15); (766516981,15); (766456647,15); (766396316,15); (766335987,15); (766275661,15); (766215337,15); (766155016,15);
(766094697,15); (766034381,15); (765974067,15); (765913756,15); (765853447,15); (765793141,15); (765732837,15); (765672535,15);
(765612237,15); (765551940,15); (765491647,15); (765431355,15); (765371066,15); (765310780,15); (765250496,15); (765190215,15);
(765129936,15); (765069660,15); (765009386,15); (764949114,15); (764888846,15); (764828579,15); (764768315,15); (764708054,15);
(764647795,15); (764587539,15); (764527285,15); (764467033,15); (764406784,15); (764346538,15); (764286294,15); (764226053,15);
(764165814,15); (764105577,15); (764045343,15); (763985112,15); (763924883,15); (763864656,15); (763804432,15); (763744211,15);
(763683992,15); (763623775,15); (763563561,15); (763503350,15); (763443141,15); (763382934,15); (763322730,15); (763262528,15);
(763202329,15); (763142133,15); (763081939,15); (763021747,15); (762961558,15); (762901371,15); (762841187,15); (762781006,15);
(762720826,15); (762660650,15); (762600475,15); (762540304,15); (762480135,15); (762419968,15); (762359804,15); (762299642,15);
(762239483,15); (762179326,15); (762119172,15); (762059020,15); (761998870,15); (761938724,15); (761878579,15); (761818437,15);
(761758298,15); (761698161,15); (761638027,15); (761577895,15); (761517765,15); (761457638,15); (761397514,15); (761337392,15);
(761277273,15); (761217156,15); (761157041,15); (761096929,15); (761036819,15); (760976712,15); (760916608,15); (760856506,15);
(760796406,15); (760736309,15); (760676214,15); (760616122,15); (760556033,15); (760495945,15); (760435861,15); (760375778,15);
(760315699,15); (760255621,15); (760195547,15); (760135474,15); (760075405,15); (760015337,15); (759955272,15); (759895210,15);
(759835150,15); (759775093,15); (759715038,15); (759654985,15); (759594935,15); (759534888,15); (759474843,15); (759414800,15);
(759354760,15); (759294723,15); (759234688,15); (759174655,15); (759114625,15); (759054597,15); (758994572,15); (758934550,15);
(758874529,15); (758814512,15); (758754496,15); (758694484,15); (758634473,15); (758574466,15); (758514460,15); (758454457,15);
(758394457,15); (758334459,15); (758274464,15); (758214471,15); (758154480,15); (758094492,15); (758034507,15); (757974524,15);
(757914543,15); (757854565,15); (757794589,15); (757734616,15); (757674646,15); (757614678,15); (757554712,15); (757494749,15);
(757434788,15); (757374830,15); (757314874,15); (757254920,15); (757194970,15); (757135021,15); (757075075,15); (757015132,15);
(756955191,15); (756895252,15); (756835316,15); (756775383,15); (756715452,15); (756655523,15); (756595597,15); (756535674,15);
(756475752,15); (756415834,15); (756355917,15); (756296004,15); (756236092,15); (756176184,15); (756116277,15); (756056373,15);
(755996472,15); (755936573,15); (755876677,15); (755816783,15); (755756891,15); (755697002,15); (755637116,15); (755577232,15);
(755517350,15); (755457471,15); (755397594,15); (755337720,15); (755277848,15); (755217979,15); (755158112,15); (755098248,15);
(755038386,15); (754978527,15); (754918670,15); (754858815,15); (754798963,15); (754739114,15); (754679267,15); (754619422,15);
(754559580,15); (754499740,15); (754439903,15); (754380068,15); (754320236,15); (754260406,15); (754200579,15); (754140754,15);
(754080932,15); (754021112,15); (753961294,15); (753901479,15); (753841667,15); (753781857,15); (753722049,15); (753662244,15);
(753602442,15); (753542641,15); (753482844,15); (753423048,15); (753363256,15); (753303465,15); (753243678,15); (753183892,15);
(753124109,15); (753064329,15); (753004551,15); (752944775,15); (752885002,15); (752825232,15); (752765463,15); (752705698,15);
(752645935,15); (752586174,15); (752526415,15); (752466660,15); (752406906,15); (752347155,15); (752287407,15); (752227661,15);
(752167917,15); (752108176,15); (752048438,15); (751988702,15); (751928968,15); (751869237,15); (751809508,15); (751749782,15);
(751690058,15); (751630337,15); (751570618,15); (751510901,15); (751451187,15); (751391476,15); (751331767,15); (751272060,15);
(751212356,15); (751152654,15); (751092955,15); (751033258,15); (750973564,15); (750913872,15); (750854183,15); (750794496,15);
(750734811,15); (750675129,15); (750615450,15); (750555773,15); (750496098,15); (750436426,15); (750376756,15); (750317089,15);
(750257424,15); (750197762,15); (750138102,15); (750078444,15); (750018789,15); (749959137,15); (749899487,15); (749839839,15);
(749780194,15); (749720551,15); (749660911,15); (749601273,15); (749541638,15); (749482005,15); (749422374,15); (749362746,15);
(749303121,15); (749243498,15); (749183877,15); (749124259,15); (749064643,15); (749005030,15); (748945419,15); (748885811,15);
(748826205,15); (748766602,15); (748707001,15); (748647402,15); (748587806,15); (748528212,15); (748468621,15); (748409033,15);
(748349446,15); (748289862,15); (748230281,15); (748170702,15); (748111126,15); (748051552,15); (747991980,15); (747932411,15);
(747872844,15); (747813280,15); (747753718,15); (747694159,15); (747634602,15); (747575048,15); (747515496,15); (747455946,15);
(747396399,15); (747336855,15); (747277313,15); (747217773,15); (747158236,15); (747098701,15); (747039168,15); (746979639,15);
(746920111,15); (746860586,15); (746801063,15); (746741543,15); (746682026,15); (746622510,15); (746562998,15); (746503487,15);
(746443979,15); (746384474,15); (746324971,15); (746265471,15); (746205972,15); (746146477,15); (746086984,15); (746027493,15);
(745968005,15); (745908519,15); (745849035,15); (745789554,15); (745730076,15); (745670600,15); (745611126,15); (745551655,15);
(745492186,15); (745432720,15); (745373256,15); (745313795,15); (745254336,15); (745194879,15); (745135425,15); (745075973,15);
(745016524,15); (744957077,15); (744897633,15); (744838191,15); (744778752,15); (744719315,15); (744659880,15); (744600448,15);
(744541019,15); (744481591,15); (744422167,15); (744362744,15); (744303325,15); (744243907,15); (744184492,15); (744125080,15);
(744065669,15); (744006262,15); (743946857,15); (743887454,15); (743828053,15); (743768656,15); (743709260,15); (743649867,15);
(743590476,15); (743531088,15); (743471703,15); (743412319,15); (743352939,15); (743293560,15); (743234184,15); (743174811,15);
(743115440,15); (743056071,15); (742996705,15); (742937341,15); (742877980,15); (742818621,15); (742759264,15); (742699910,15);
(742640559,15); (742581210,15); (742521863,15); (742462519,15); (742403177,15); (742343838,15); (742284501,15); (742225166,15);
(742165834,15); (742106505,15); (742047177,15); (741987853,15); (741928530,15); (741869210,15); (741809893,15); (741750578,15);
(741691265,15); (741631955,15); (741572648,15); (741513342,15); (741454039,15); (741394739,15); (741335441,15); (741276146,15);
(741216852,15); (741157562,15); (741098274,15); (741038988,15); (740979704,15); (740920423,15); (740861145,15); (740801869,15);
(740742595,15); (740683324,15); (740624055,15); (740564789,15); (740505525,15); (740446264,15); (740387005,15); (740327748,15);
(740268494,15); (740209242,15); (740149993,15); (740090746,15); (740031501,15); (739972259,15); (739913020,15); (739853783,15);
(739794548,15); (739735316,15); (739676086,15); (739616858,15); (739557633,15); (739498411,15); (739439191,15); (739379973,15);
(739320758,15); (739261545,15); (739202334,15); (739143126,15); (739083921,15); (739024718,15); (738965517,15); (738906319,15);
(738847123,15); (738787929,15); (738728738,15); (738669550,15); (738610364,15); (738551180,15); (738491999,15); (738432820,15);
(738373643,15); (738314469,15); (738255298,15); (738196129,15); (738136962,15); (738077797,15); (738018636,15); (737959476,15);
(737900319,15); (737841165,15); (737782012,15); (737722863,15); (737663715,15); (737604570,15); (737545428,15); (737486288,15);
(737427150,15); (737368015,15); (737308882,15); (737249752,15); (737190624,15); (737131498,15); (737072375,15); (737013255,15);
(736954136,15); (736895021,15); (736835907,15); (736776796,15); (736717688,15); (736658582,15); (736599478,15); (736540377,15);
(736481278,15); (736422181,15); (736363087,15); (736303996,15); (736244907,15); (736185820,15); (736126736,15); (736067654,15);
(736008574,15); (735949497,15); (735890422,15); (735831350,15); (735772280,15); (735713213,15); (735654148,15); (735595086,15);
(735536025,15); (735476968,15); (735417912,15); (735358860,15); (735299809,15); (735240761,15); (735181716,15); (735122672,15);
(735063632,15); (735004593,15); (734945557,15); (734886524,15); (734827493,15); (734768464,15); (734709438,15); (734650414,15);
(734591393,15); (734532374,15); (734473357,15); (734414343,15); (734355331,15); (734296322,15); (734237315,15); (734178310,15);
(734119308,15); (734060309,15); (734001311,15); (733942316,15); (733883324,15); (733824334,15); (733765346,15); (733706361,15);
(733647378,15); (733588398,15); (733529420,15); (733470445,15); (733411472,15); (733352501,15); (733293533,15); (733234567,15);
(733175603,15); (733116642,15); (733057684,15); (732998727,15); (732939774,15); (732880822,15); (732821873,15); (732762927,15);
(732703983,15); (732645041,15); (732586102,15); (732527165,15); (732468230,15); (732409298,15); (732350368,15); (732291441,15);
(732232516,15); (732173594,15); (732114674,15); (732055756,15); (731996841,15); (731937928,15); (731879018,15); (731820110,15);
(731761204,15); (731702301,15); (731643400,15); (731584502,15); (731525606,15); (731466713,15); (731407822,15); (731348933,15);
(731290047,15); (731231163,15); (731172281,15); (731113402,15); (731054526,15); (730995651,15); (730936779,15); (730877910,15);
(730819043,15); (730760178,15); (730701316,15); (730642456,15); (730583599,15); (730524744,15); (730465891,15); (730407041,15);
(730348194,15); (730289348,15); (730230505,15); (730171665,15); (730112827,15); (730053991,15); (729995158,15); (729936327,15);
(729877498,15); (729818672,15); (729759848,15); (729701027,15); (729642208,15); (729583392,15); (729524578,15); (729465766,15);
(729406957,15); (729348150,15); (729289345,15); (729230543,15); (729171744,15); (729112946,15); (729054152,15); (728995359,15);
(728936569,15); (728877781,15); (728818996,15); (728760213,15); (728701433,15); (728642655,15); (728583879,15); (728525106,15);
(728466335,15); (728407567,15); (728348801,15); (728290037,15); (728231276,15); (728172517,15); (728113761,15); (728055007,15);
(727996255,15); (727937506,15); (727878759,15); (727820015,15); (727761273,15); (727702533,15); (727643796,15); (727585061,15);
(727526329,15); (727467599,15); (727408871,15); (727350146,15); (727291423,15); (727232703,15); (727173985,15); (727115269,15);
(727056556,15); (726997845,15); (726939137,15); (726880431,15); (726821727,15); (726763026,15); (726704327,15); (726645630,15);
(726586936,15); (726528245,15); (726469556,15); (726410869,15); (726352184,15); (726293502,15); (726234823,15); (726176145,15);
(726117471,15); (726058798,15); (726000128,15); (725941460,15); (725882795,15); (725824132,15); (725765472,15); (725706814,15);
(725648158,15); (725589505,15); (725530854,15); (725472205,15); (725413559,15); (725354915,15); (725296274,15); (725237635,15);
(725178999,15); (725120364,15); (725061733,15); (725003103,15); (724944476,15); (724885852,15); (724827230,15); (724768610,15);
(724709992,15); (724651377,15); (724592765,15); (724534155,15); (724475547,15); (724416941,15); (724358338,15); (724299738,15);
(724241139,15); (724182544,15); (724123950,15); (724065359,15); (724006770,15); (723948184,15); (723889600,15); (723831019,15);
(723772439,15); (723713863,15); (723655288,15); (723596716,15); (723538147,15); (723479580,15); (723421015,15); (723362452,15);
(723303892,15); (723245335,15); (723186780,15); (723128227,15); (723069676,15); (723011128,15); (722952582,15); (722894039,15);
(722835498,15); (722776960,15); (722718424,15); (722659890,15); (722601359,15); (722542830,15); (722484303,15); (722425779,15);
(722367257,15); (722308738,15); (722250221,15); (722191706,15); (722133194,15); (722074684,15); (722016176,15); (721957671,15);
(721899168,15); (721840668,15); (721782170,15); (721723675,15); (721665181,15); (721606691,15); (721548202,15); (721489716,15);
(721431233,15); (721372751,15); (721314272,15); (721255796,15); (721197322,15); (721138850,15); (721080381,15); (721021914,15);
(720963449,15); (720904987,15); (720846527,15); (720788070,15); (720729615,15); (720671162,15); (720612712,15); (720554264,15);
(720495818,15); (720437375,15); (720378935,15); (720320496,15); (720262060,15); (720203627,15); (720145195,15); (720086767,15);
(720028340,15); (719969916,15); (719911494,15); (719853075,15); (719794658,15); (719736244,15); (719677831,15); (719619422,15);
(719561014,15); (719502609,15); (719444207,15); (719385806,15); (719327408,15); (719269013,15); (719210620,15); (719152229,15);
(719093841,15); (719035455,15); (718977071,15); (718918690,15); (718860311,15); (718801934,15); (718743560,15); (718685189,15);
(718626819,15); (718568452,15); (718510088,15); (718451725,15); (718393366,15); (718335008,15); (718276653,15); (718218300,15);
(718159950,15); (718101602,15); (718043256,15); (717984913,15); (717926572,15); (717868234,15); (717809898,15); (717751564,15);
(717693233,15); (717634904,15); (717576577,15); (717518253,15); (717459931,15); (717401612,15); (717343295,15); (717284980,15);
(717226668,15); (717168358,15); (717110050,15); (717051745,15); (716993442,15); (716935141,15); (716876843,15); (716818548,15);
(716760254,15); (716701963,15); (716643675,15); (716585388,15); (716527105,15); (716468823,15); (716410544,15); (716352267,15);
(716293993,15); (716235721,15); (716177451,15); (716119184,15); (716060919,15); (716002657,15); (715944396,15); (715886139,15)].
