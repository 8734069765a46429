(** Transcription of entries 16384..32767 of RECIPROCAL, /repo/src/probability/div_lut.rs:19-4116
    (generated by tools/gen_div_lut.py). *)
From Verif Require Import Prelude.

(** entries 16384..18431 *)
Definition RECIPROCAL_8 : list (Z * Z) := [
(2147483649,14); (2147221520,14); (2146959424,14); (2146697360,14); (2146435328,14); (2146173328,14); (2145911360,14); (2145649424,14);
(2145387520,14); (2145125648,14); (2144863808,14); (2144601999,14); (2144340223,14); (2144078478,14); (2143816766,14); (2143555085,14);
(2143293437,14); (2143031820,14); (2142770235,14); (2142508682,14); (2142247161,14); (2141985671,14); (2141724214,14); (2141462789,14);
(2141201395,14); (2140940033,14); (2140678703,14); (2140417405,14); (2140156139,14); (2139894905,14); (2139633702,14); (2139372531,14);
(2139111393,14); (2138850285,14); (2138589210,14); (2138328167,14); (2138067155,14); (2137806175,14); (2137545227,14); (2137284311,14);
(2137023426,14); (2136762573,14); (2136501752,14); (2136240963,14); (2135980206,14); (2135719480,14); (2135458786,14); (2135198123,14);
(2134937493,14); (2134676894,14); (2134416327,14); (2134155791,14); (2133895288,14); (2133634816,14); (2133374375,14); (2133113967,14);
(2132853590,14); (2132593244,14); (2132332931,14); (2132072649,14); (2131812398,14); (2131552180,14); (2131291993,14); (2131031837,14);
(2130771713,14); (2130511621,14); (2130251561,14); (2129991532,14); (2129731535,14); (2129471569,14); (2129211635,14); (2128951732,14);
(2128691862,14); (2128432022,14); (2128172215,14); (2127912438,14); (2127652694,14); (2127392981,14); (2127133299,14); (2126873649,14);
(2126614031,14); (2126354444,14); (2126094889,14); (2125835365,14); (2125575873,14); (2125316412,14); (2125056983,14); (2124797585,14);
(2124538219,14); (2124278884,14); (2124019580,14); (2123760309,14); (2123501068,14); (2123241859,14); (2122982682,14); (2122723536,14);
(2122464422,14); (2122205338,14); (2121946287,14); (2121687267,14); (2121428278,14); (2121169321,14); (2120910395,14); (2120651500,14);
(2120392637,14); (2120133805,14); (2119875005,14); (2119616236,14); (2119357498,14); (2119098792,14); (2118840117,14); (2118581474,14);
(2118322862,14); (2118064281,14); (2117805732,14); (2117547214,14); (2117288727,14); (2117030272,14); (2116771847,14); (2116513455,14);
(2116255093,14); (2115996763,14); (2115738464,14); (2115480197,14); (2115221961,14); (2114963756,14); (2114705582,14); (2114447440,14);
(2114189328,14); (2113931249,14); (2113673200,14); (2113415183,14); (2113157196,14); (2112899242,14); (2112641318,14); (2112383425,14);
(2112125564,14); (2111867734,14); (2111609935,14); (2111352168,14); (2111094432,14); (2110836726,14); (2110579052,14); (2110321410,14);
(2110063798,14); (2109806217,14); (2109548668,14); (2109291150,14); (2109033663,14); (2108776207,14); (2108518783,14); (2108261389,14);
(2108004027,14); (2107746695,14); (2107489395,14); (2107232126,14); (2106974888,14); (2106717681,14); (2106460505,14); (2106203361,14);
(2105946247,14); (2105689165,14); (2105432113,14); (2105175093,14); (2104918104,14); (2104661145,14); (2104404218,14); (2104147322,14);
(2103890457,14); (2103633623,14); (2103376820,14); (2103120048,14); (2102863307,14); (2102606597,14); (2102349918,14); (2102093270,14);
(2101836653,14); (2101580067,14); (2101323512,14); (2101066988,14); (2100810495,14); (2100554033,14); (2100297602,14); (2100041202,14);
(2099784833,14); (2099528494,14); (2099272187,14); (2099015911,14); (2098759665,14); (2098503451,14); (2098247267,14); (2097991114,14);
(2097734993,14); (2097478902,14); (2097222842,14); (2096966813,14); (2096710814,14); (2096454847,14); (2096198911,14); (2095943005,14);
(2095687130,14); (2095431286,14); (2095175473,14); (2094919691,14); (2094663940,14); (2094408219,14); (2094152530,14); (2093896871,14);
(2093641243,14); (2093385645,14); (2093130079,14); (2092874543,14); (2092619039,14); (2092363565,14); (2092108121,14); (2091852709,14);
(2091597327,14); (2091341976,14); (2091086656,14); (2090831367,14); (2090576108,14); (2090320880,14); (2090065683,14); (2089810516,14);
(2089555381,14); (2089300276,14); (2089045201,14); (2088790158,14); (2088535145,14); (2088280163,14); (2088025211,14); (2087770290,14);
(2087515400,14); (2087260541,14); (2087005712,14); (2086750914,14); (2086496147,14); (2086241410,14); (2085986704,14); (2085732028,14);
(2085477383,14); (2085222769,14); (2084968186,14); (2084713633,14); (2084459110,14); (2084204619,14); (2083950158,14); (2083695727,14);
(2083441327,14); (2083186958,14); (2082932619,14); (2082678311,14); (2082424033,14); (2082169786,14); (2081915570,14); (2081661384,14);
(2081407229,14); (2081153104,14); (2080899009,14); (2080644946,14); (2080390913,14); (2080136910,14); (2079882938,14); (2079628996,14);
(2079375085,14); (2079121204,14); (2078867354,14); (2078613535,14); (2078359745,14); (2078105987,14); (2077852258,14); (2077598561,14);
(2077344893,14); (2077091257,14); (2076837650,14); (2076584074,14); (2076330529,14); (2076077014,14); (2075823529,14); (2075570075,14);
(2075316651,14); (2075063258,14); (2074809895,14); (2074556562,14); (2074303260,14); (2074049988,14); (2073796747,14); (2073543536,14);
(2073290355,14); (2073037205,14); (2072784085,14); (2072530996,14); (2072277937,14); (2072024908,14); (2071771909,14); (2071518941,14);
(2071266003,14); (2071013096,14); (2070760219,14); (2070507372,14); (2070254555,14); (2070001769,14); (2069749013,14); (2069496288,14);
(2069243592,14); (2068990927,14); (2068738292,14); (2068485688,14); (2068233114,14); (2067980570,14); (2067728056,14); (2067475572,14);
(2067223119,14); (2066970696,14); (2066718303,14); (2066465941,14); (2066213609,14); (2065961307,14); (2065709035,14); (2065456793,14);
(2065204582,14); (2064952400,14); (2064700249,14); (2064448128,14); (2064196038,14); (2063943977,14); (2063691947,14); (2063439946,14);
(2063187976,14); (2062936036,14); (2062684127,14); (2062432247,14); (2062180398,14); (2061928578,14); (2061676789,14); (2061425030,14);
(2061173301,14); (2060921602,14); (2060669933,14); (2060418295,14); (2060166686,14); (2059915108,14); (2059663559,14); (2059412041,14);
(2059160553,14); (2058909094,14); (2058657666,14); (2058406268,14); (2058154900,14); (2057903562,14); (2057652254,14); (2057400976,14);
(2057149728,14); (2056898510,14); (2056647323,14); (2056396165,14); (2056145037,14); (2055893939,14); (2055642871,14); (2055391833,14);
(2055140826,14); (2054889848,14); (2054638900,14); (2054387982,14); (2054137094,14); (2053886236,14); (2053635408,14); (2053384610,14);
(2053133842,14); (2052883103,14); (2052632395,14); (2052381717,14); (2052131068,14); (2051880450,14); (2051629861,14); (2051379302,14);
(2051128774,14); (2050878275,14); (2050627806,14); (2050377366,14); (2050126957,14); (2049876578,14); (2049626228,14); (2049375909,14);
(2049125619,14); (2048875359,14); (2048625129,14); (2048374928,14); (2048124758,14); (2047874617,14); (2047624507,14); (2047374426,14);
(2047124375,14); (2046874353,14); (2046624362,14); (2046374400,14); (2046124468,14); (2045874566,14); (2045624693,14); (2045374851,14);
(2045125038,14); (2044875255,14); (2044625502,14); (2044375778,14); (2044126084,14); (2043876420,14); (2043626786,14); (2043377181,14);
(2043127607,14); (2042878061,14); (2042628546,14); (2042379060,14); (2042129604,14); (2041880178,14); (2041630781,14); (2041381415,14);
(2041132077,14); (2040882770,14); (2040633492,14); (2040384244,14); (2040135025,14); (2039885836,14); (2039636677,14); (2039387548,14);
(2039138448,14); (2038889378,14); (2038640337,14); (2038391326,14); (2038142345,14); (2037893393,14); (2037644471,14); (2037395578,14);
(2037146715,14); (2036897882,14); (2036649078,14); (2036400304,14); (2036151559,14); (2035902844,14); (2035654159,14); (2035405503,14);
(2035156877,14); (2034908280,14); (2034659713,14); (2034411175,14); (2034162667,14); (2033914188,14); (2033665739,14); (2033417320,14);
(2033168930,14); (2032920569,14); (2032672238,14); (2032423937,14); (2032175665,14); (2031927422,14); (2031679209,14); (2031431025,14);
(2031182871,14); (2030934747,14); (2030686652,14); (2030438586,14); (2030190550,14); (2029942543,14); (2029694566,14); (2029446618,14);
(2029198699,14); (2028950810,14); (2028702951,14); (2028455120,14); (2028207320,14); (2027959548,14); (2027711806,14); (2027464094,14);
(2027216411,14); (2026968757,14); (2026721132,14); (2026473537,14); (2026225972,14); (2025978435,14); (2025730928,14); (2025483451,14);
(2025236003,14); (2024988584,14); (2024741194,14); (2024493834,14); (2024246503,14); (2023999201,14); (2023751929,14); (2023504686,14);
(2023257473,14); (2023010288,14); (2022763133,14); (2022516007,14); (2022268911,14); (2022021844,14); (2021774806,14); (2021527797,14);
(2021280818,14); (2021033868,14); (2020786947,14); (2020540055,14); (2020293193,14); (2020046360,14); (2019799556,14); (2019552782,14);
(2019306036,14); (2019059320,14); (2018812633,14); (2018565975,14); (2018319347,14); (2018072747,14); (2017826177,14); (2017579636,14);
(2017333124,14); (2017086642,14); (2016840188,14); (2016593764,14); (2016347369,14); (2016101003,14); (2015854666,14); (2015608359,14);
(2015362080,14); (2015115831,14); (2014869610,14); (2014623419,14); (2014377257,14); (2014131124,14); (2013885021,14); (2013638946,14);
(2013392900,14); (2013146884,14); (2012900897,14); (2012654938,14); (2012409009,14); (2012163109,14); (2011917238,14); (2011671396,14);
(2011425583,14); (2011179799,14); (2010934044,14); (2010688318,14); (2010442622,14); (2010196954,14); (2009951315,14); (2009705705,14);
(2009460125,14); (2009214573,14); (2008969051,14); (2008723557,14); (2008478092,14); (2008232657,14); (2007987250,14); (2007741872,14);
(2007496524,14); (2007251204,14); (2007005913,14); (2006760651,14); (2006515418,14); (2006270215,14); (2006025040,14); (2005779894,14);
(2005534777,14); (2005289688,14); (2005044629,14); (2004799599,14); (2004554598,14); (2004309625,14); (2004064682,14); (2003819767,14);
(2003574881,14); (2003330024,14); (2003085196,14); (2002840397,14); (2002595627,14); (2002350886,14); (2002106173,14); (2001861489,14);
(2001616835,14); (2001372209,14); (2001127612,14); (2000883043,14); (2000638504,14); (2000393993,14); (2000149512,14); (1999905059,14);
(1999660635,14); (1999416239,14); (1999171873,14); (1998927535,14); (1998683226,14); (1998438946,14); (1998194695,14); (1997950472,14);
(1997706278,14); (1997462113,14); (1997217977,14); (1996973869,14); (1996729791,14); (1996485741,14); (1996241719,14); (1995997727,14);
(1995753763,14); (1995509828,14); (1995265921,14); (1995022044,14); (1994778195,14); (1994534375,14); (1994290583,14); (1994046820,14);
(1993803086,14); (1993559381,14); (1993315704,14); (1993072056,14); (1992828436,14); (1992584846,14); (1992341284,14); (1992097750,14);
(1991854245,14); (1991610769,14); (1991367322,14); (1991123903,14); (1990880513,14); (1990637151,14); (1990393818,14); (1990150514,14);
(1989907238,14); (1989663991,14); (1989420772,14); (1989177582,14); (1988934421,14); (1988691288,14); (1988448184,14); (1988205108,14);
(1987962061,14); (1987719043,14); (1987476053,14); (1987233091,14); (1986990158,14); (1986747254,14); (1986504378,14); (1986261531,14);
(1986018713,14); (1985775922,14); (1985533161,14); (1985290428,14); (1985047723,14); (1984805047,14); (1984562399,14); (1984319780,14);
(1984077190,14); (1983834627,14); (1983592094,14); (1983349589,14); (1983107112,14); (1982864664,14); (1982622244,14); (1982379853,14);
(1982137490,14); (1981895155,14); (1981652849,14); (1981410572,14); (1981168323,14); (1980926102,14); (1980683910,14); (1980441746,14);
(1980199610,14); (1979957503,14); (1979715425,14); (1979473374,14); (1979231352,14); (1978989359,14); (1978747394,14); (1978505457,14);
(1978263549,14); (1978021669,14); (1977779817,14); (1977537994,14); (1977296199,14); (1977054432,14); (1976812694,14); (1976570984,14);
(1976329302,14); (1976087649,14); (1975846024,14); (1975604428,14); (1975362859,14); (1975121319,14); (1974879808,14); (1974638324,14);
(1974396869,14); (1974155442,14); (1973914044,14); (1973672673,14); (1973431331,14); (1973190018,14); (1972948732,14); (1972707475,14);
(1972466246,14); (1972225045,14); (1971983873,14); (1971742728,14); (1971501612,14); (1971260524,14); (1971019465,14); (1970778433,14);
(1970537430,14); (1970296455,14); (1970055509,14); (1969814590,14); (1969573700,14); (1969332837,14); (1969092003,14); (1968851198,14);
(1968610420,14); (1968369670,14); (1968128949,14); (1967888256,14); (1967647591,14); (1967406954,14); (1967166345,14); (1966925765,14);
(1966685212,14); (1966444688,14); (1966204192,14); (1965963724,14); (1965723284,14); (1965482872,14); (1965242488,14); (1965002132,14);
(1964761805,14); (1964521505,14); (1964281234,14); (1964040990,14); (1963800775,14); (1963560588,14); (1963320429,14); (1963080298,14);
(1962840195,14); (1962600120,14); (1962360073,14); (1962120054,14); (1961880063,14); (1961640100,14); (1961400165,14); (1961160258,14);
(1960920380,14); (1960680529,14); (1960440706,14); (1960200911,14); (1959961145,14); (1959721406,14); (1959481695,14); (1959242012,14);
(1959002357,14); (1958762730,14); (1958523131,14); (1958283560,14); (1958044017,14); (1957804502,14); (1957565015,14); (1957325556,14);
(1957086125,14); (1956846722,14); (1956607346,14); (1956367999,14); (1956128679,14); (1955889388,14); (1955650124,14); (1955410888,14);
(1955171680,14); (1954932500,14); (1954693348,14); (1954454224,14); (1954215127,14); (1953976059,14); (1953737018,14); (1953498005,14);
(1953259020,14); (1953020063,14); (1952781134,14); (1952542232,14); (1952303359,14); (1952064513,14); (1951825695,14); (1951586905,14);
(1951348143,14); (1951109408,14); (1950870702,14); (1950632023,14); (1950393372,14); (1950154749,14); (1949916153,14); (1949677586,14);
(1949439046,14); (1949200534,14); (1948962049,14); (1948723593,14); (1948485164,14); (1948246763,14); (1948008389,14); (1947770044,14);
(1947531726,14); (1947293436,14); (1947055173,14); (1946816939,14); (1946578732,14); (1946340553,14); (1946102401,14); (1945864277,14);
(1945626181,14); (1945388113,14); (1945150072,14); (1944912059,14); (1944674074,14); (1944436116,14); (1944198186,14); (1943960284,14);
(1943722409,14); (1943484562,14); (1943246743,14); (1943008951,14); (1942771187,14); (1942533451,14); (1942295742,14); (1942058061,14);
(1941820407,14); (1941582782,14); (1941345183,14); (1941107613,14); (1940870070,14); (1940632554,14); (1940395066,14); (1940157606,14);
(1939920173,14); (1939682768,14); (1939445391,14); (1939208041,14); (1938970718,14); (1938733423,14); (1938496156,14); (1938258916,14);
(1938021704,14); (1937784520,14); (1937547362,14); (1937310233,14); (1937073131,14); (1936836056,14); (1936599009,14); (1936361990,14);
(1936124998,14); (1935888033,14); (1935651096,14); (1935414187,14); (1935177305,14); (1934940451,14); (1934703624,14); (1934466824,14);
(1934230052,14); (1933993307,14); (1933756590,14); (1933519900,14); (1933283238,14); (1933046603,14); (1932809996,14); (1932573416,14);
(1932336864,14); (1932100339,14); (1931863841,14); (1931627371,14); (1931390928,14); (1931154513,14); (1930918125,14); (1930681764,14);
(1930445431,14); (1930209125,14); (1929972847,14); (1929736596,14); (1929500372,14); (1929264176,14); (1929028007,14); (1928791865,14);
(1928555751,14); (1928319664,14); (1928083605,14); (1927847573,14); (1927611568,14); (1927375590,14); (1927139640,14); (1926903717,14);
(1926667822,14); (1926431954,14); (1926196113,14); (1925960299,14); (1925724513,14); (1925488754,14); (1925253022,14); (1925017318,14);
(1924781641,14); (1924545991,14); (1924310368,14); (1924074773,14); (1923839205,14); (1923603664,14); (1923368150,14); (1923132664,14);
(1922897205,14); (1922661773,14); (1922426369,14); (1922190991,14); (1921955641,14); (1921720318,14); (1921485022,14); (1921249754,14);
(1921014513,14); (1920779299,14); (1920544112,14); (1920308952,14); (1920073819,14); (1919838714,14); (1919603636,14); (1919368585,14);
(1919133561,14); (1918898564,14); (1918663595,14); (1918428653,14); (1918193737,14); (1917958849,14); (1917723988,14); (1917489155,14);
(1917254348,14); (1917019568,14); (1916784816,14); (1916550091,14); (1916315393,14); (1916080721,14); (1915846078,14); (1915611461,14);
(1915376871,14); (1915142308,14); (1914907773,14); (1914673264,14); (1914438783,14); (1914204328,14); (1913969901,14); (1913735501,14);
(1913501127,14); (1913266781,14); (1913032462,14); (1912798170,14); (1912563905,14); (1912329667,14); (1912095456,14); (1911861272,14);
(1911627115,14); (1911392985,14); (1911158882,14); (1910924806,14); (1910690757,14); (1910456735,14); (1910222740,14); (1909988772,14);
(1909754831,14); (1909520917,14); (1909287030,14); (1909053170,14); (1908819337,14); (1908585531,14); (1908351752,14); (1908118000,14);
(1907884274,14); (1907650576,14); (1907416904,14); (1907183260,14); (1906949642,14); (1906716052,14); (1906482488,14); (1906248951,14);
(1906015441,14); (1905781958,14); (1905548502,14); (1905315073,14); (1905081670,14); (1904848295,14); (1904614946,14); (1904381624,14);
(1904148330,14); (1903915062,14); (1903681820,14); (1903448606,14); (1903215419,14); (1902982258,14); (1902749124,14); (1902516017,14);
(1902282937,14); (1902049884,14); (1901816858,14); (1901583858,14); (1901350885,14); (1901117939,14); (1900885020,14); (1900652128,14);
(1900419262,14); (1900186423,14); (1899953611,14); (1899720826,14); (1899488067,14); (1899255336,14); (1899022631,14); (1898789953,14);
(1898557301,14); (1898324676,14); (1898092078,14); (1897859507,14); (1897626963,14); (1897394445,14); (1897161954,14); (1896929490,14);
(1896697052,14); (1896464642,14); (1896232257,14); (1895999900,14); (1895767569,14); (1895535265,14); (1895302988,14); (1895070737,14);
(1894838513,14); (1894606316,14); (1894374146,14); (1894142002,14); (1893909884,14); (1893677794,14); (1893445730,14); (1893213693,14);
(1892981682,14); (1892749698,14); (1892517741,14); (1892285810,14); (1892053906,14); (1891822028,14); (1891590177,14); (1891358353,14);
(1891126556,14); (1890894785,14); (1890663040,14); (1890431322,14); (1890199631,14); (1889967966,14); (1889736328,14); (1889504717,14);
(1889273132,14); (1889041573,14); (1888810042,14); (1888578536,14); (1888347058,14); (1888115606,14); (1887884180,14); (1887652781,14);
(1887421409,14); (1887190063,14); (1886958743,14); (1886727450,14); (1886496184,14); (1886264944,14); (1886033731,14); (1885802544,14);
(1885571383,14); (1885340249,14); (1885109142,14); (1884878061,14); (1884647007,14); (1884415979,14); (1884184977,14); (1883954002,14);
(1883723054,14); (1883492132,14); (1883261236,14); (1883030367,14); (1882799524,14); (1882568708,14); (1882337918,14); (1882107155,14);
(1881876418,14); (1881645707,14); (1881415023,14); (1881184365,14); (1880953734,14); (1880723129,14); (1880492550,14); (1880261998,14);
(1880031473,14); (1879800973,14); (1879570500,14); (1879340054,14); (1879109633,14); (1878879240,14); (1878648872,14); (1878418531,14);
(1878188216,14); (1877957928,14); (1877727666,14); (1877497430,14); (1877267221,14); (1877037038,14); (1876806881,14); (1876576750,14);
(1876346646,14); (1876116569,14); (1875886517,14); (1875656492,14); (1875426493,14); (1875196520,14); (1874966574,14); (1874736654,14);
(1874506760,14); (1874276893,14); (1874047052,14); (1873817237,14); (1873587448,14); (1873357686,14); (1873127950,14); (1872898240,14);
(1872668556,14); (1872438899,14); (1872209268,14); (1871979663,14); (1871750084,14); (1871520532,14); (1871291006,14); (1871061506,14);
(1870832032,14); (1870602584,14); (1870373163,14); (1870143768,14); (1869914399,14); (1869685056,14); (1869455739,14); (1869226449,14);
(1868997185,14); (1868767946,14); (1868538735,14); (1868309549,14); (1868080389,14); (1867851256,14); (1867622148,14); (1867393067,14);
(1867164012,14); (1866934983,14); (1866705980,14); (1866477004,14); (1866248053,14); (1866019129,14); (1865790231,14); (1865561358,14);
(1865332512,14); (1865103692,14); (1864874898,14); (1864646131,14); (1864417389,14); (1864188673,14); (1863959984,14); (1863731320,14);
(1863502683,14); (1863274071,14); (1863045486,14); (1862816927,14); (1862588394,14); (1862359886,14); (1862131405,14); (1861902950,14);
(1861674521,14); (1861446118,14); (1861217741,14); (1860989390,14); (1860761065,14); (1860532766,14); (1860304493,14); (1860076246,14);
(1859848025,14); (1859619831,14); (1859391662,14); (1859163519,14); (1858935402,14); (1858707311,14); (1858479245,14); (1858251206,14);
(1858023193,14); (1857795206,14); (1857567245,14); (1857339310,14); (1857111400,14); (1856883517,14); (1856655659,14); (1856427828,14);
(1856200022,14); (1855972242,14); (1855744489,14); (1855516761,14); (1855289059,14); (1855061383,14); (1854833733,14); (1854606108,14);
(1854378510,14); (1854150938,14); (1853923391,14); (1853695870,14); (1853468375,14); (1853240906,14); (1853013463,14); (1852786046,14);
(1852558655,14); (1852331289,14); (1852103949,14); (1851876635,14); (1851649347,14); (1851422085,14); (1851194849,14); (1850967638,14);
(1850740454,14); (1850513295,14); (1850286161,14); (1850059054,14); (1849831973,14); (1849604917,14); (1849377887,14); (1849150883,14);
(1848923905,14); (1848696952,14); (1848470025,14); (1848243124,14); (1848016249,14); (1847789400,14); (1847562576,14); (1847335778,14);
(1847109006,14); (1846882259,14); (1846655538,14); (1846428843,14); (1846202174,14); (1845975531,14); (1845748913,14); (1845522321,14);
(1845295754,14); (1845069214,14); (1844842699,14); (1844616209,14); (1844389746,14); (1844163308,14); (1843936896,14); (1843710509,14);
(1843484148,14); (1843257813,14); (1843031504,14); (1842805220,14); (1842578962,14); (1842352729,14); (1842126522,14); (1841900341,14);
(1841674186,14); (1841448056,14); (1841221952,14); (1840995873,14); (1840769820,14); (1840543792,14); (1840317791,14); (1840091814,14);
(1839865864,14); (1839639939,14); (1839414040,14); (1839188166,14); (1838962318,14); (1838736495,14); (1838510698,14); (1838284927,14);
(1838059181,14); (1837833461,14); (1837607766,14); (1837382097,14); (1837156453,14); (1836930835,14); (1836705243,14); (1836479676,14);
(1836254134,14); (1836028618,14); (1835803128,14); (1835577663,14); (1835352224,14); (1835126810,14); (1834901422,14); (1834676059,14);
(1834450722,14); (1834225410,14); (1834000124,14); (1833774863,14); (1833549628,14); (1833324418,14); (1833099234,14); (1832874075,14);
(1832648942,14); (1832423834,14); (1832198751,14); (1831973694,14); (1831748663,14); (1831523657,14); (1831298676,14); (1831073721,14);
(1830848791,14); (1830623887,14); (1830399008,14); (1830174155,14); (1829949327,14); (1829724524,14); (1829499747,14); (1829274995,14);
(1829050269,14); (1828825567,14); (1828600892,14); (1828376242,14); (1828151617,14); (1827927017,14); (1827702443,14); (1827477894,14);
(1827253371,14); (1827028873,14); (1826804400,14); (1826579953,14); (1826355531,14); (1826131135,14); (1825906763,14); (1825682418,14);
(1825458097,14); (1825233802,14); (1825009532,14); (1824785287,14); (1824561068,14); (1824336874,14); (1824112705,14); (1823888562,14);
(1823664444,14); (1823440351,14); (1823216284,14); (1822992241,14); (1822768224,14); (1822544233,14); (1822320266,14); (1822096325,14);
(1821872409,14); (1821648519,14); (1821424654,14); (1821200813,14); (1820976999,14); (1820753209,14); (1820529445,14); (1820305706,14);
(1820081992,14); (1819858303,14); (1819634640,14); (1819411001,14); (1819187388,14); (1818963801,14); (1818740238,14); (1818516701,14);
(1818293188,14); (1818069701,14); (1817846240,14); (1817622803,14); (1817399392,14); (1817176005,14); (1816952644,14); (1816729308,14);
(1816505997,14); (1816282712,14); (1816059451,14); (1815836216,14); (1815613006,14); (1815389821,14); (1815166661,14); (1814943526,14);
(1814720417,14); (1814497332,14); (1814274273,14); (1814051238,14); (1813828229,14); (1813605245,14); (1813382286,14); (1813159352,14);
(1812936444,14); (1812713560,14); (1812490701,14); (1812267868,14); (1812045059,14); (1811822276,14); (1811599518,14); (1811376784,14);
(1811154076,14); (1810931393,14); (1810708735,14); (1810486102,14); (1810263494,14); (1810040911,14); (1809818353,14); (1809595820,14);
(1809373313,14); (1809150830,14); (1808928372,14); (1808705939,14); (1808483531,14); (1808261149,14); (1808038791,14); (1807816458,14);
(1807594150,14); (1807371867,14); (1807149610,14); (1806927377,14); (1806705169,14); (1806482986,14); (1806260828,14); (1806038695,14);
(1805816587,14); (1805594504,14); (1805372446,14); (1805150413,14); (1804928405,14); (1804706421,14); (1804484463,14); (1804262530,14);
(1804040621,14); (1803818738,14); (1803596879,14); (1803375045,14); (1803153236,14); (1802931453,14); (1802709694,14); (1802487959,14);
(1802266250,14); (1802044566,14); (1801822906,14); (1801601272,14); (1801379662,14); (1801158077,14); (1800936517,14); (1800714982,14);
(1800493472,14); (1800271987,14); (1800050526,14); (1799829090,14); (1799607679,14); (1799386293,14); (1799164932,14); (1798943596,14);
(1798722284,14); (1798500998,14); (1798279736,14); (1798058499,14); (1797837286,14); (1797616099,14); (1797394936,14); (1797173798,14);
(1796952685,14); (1796731597,14); (1796510534,14); (1796289495,14); (1796068481,14); (1795847492,14); (1795626527,14); (1795405588,14);
(1795184673,14); (1794963782,14); (1794742917,14); (1794522076,14); (1794301261,14); (1794080469,14); (1793859703,14); (1793638961,14);
(1793418244,14); (1793197552,14); (1792976884,14); (1792756242,14); (1792535623,14); (1792315030,14); (1792094461,14); (1791873917,14);
(1791653398,14); (1791432903,14); (1791212433,14); (1790991988,14); (1790771567,14); (1790551171,14); (1790330800,14); (1790110453,14);
(1789890131,14); (1789669834,14); (1789449561,14); (1789229313,14); (1789009090,14); (1788788891,14); (1788568717,14); (1788348568,14);
(1788128443,14); (1787908343,14); (1787688267,14); (1787468216,14); (1787248190,14); (1787028188,14); (1786808211,14); (1786588258,14);
(1786368330,14); (1786148427,14); (1785928548,14); (1785708694,14); (1785488864,14); (1785269059,14); (1785049278,14); (1784829523,14);
(1784609791,14); (1784390084,14); (1784170402,14); (1783950744,14); (1783731111,14); (1783511502,14); (1783291918,14); (1783072359,14);
(1782852824,14); (1782633313,14); (1782413827,14); (1782194365,14); (1781974928,14); (1781755516,14); (1781536128,14); (1781316764,14);
(1781097425,14); (1780878111,14); (1780658821,14); (1780439555,14); (1780220314,14); (1780001098,14); (1779781905,14); (1779562738,14);
(1779343595,14); (1779124476,14); (1778905381,14); (1778686312,14); (1778467266,14); (1778248245,14); (1778029249,14); (1777810277,14);
(1777591329,14); (1777372406,14); (1777153507,14); (1776934632,14); (1776715782,14); (1776496957,14); (1776278156,14); (1776059379,14);
(1775840626,14); (1775621898,14); (1775403195,14); (1775184516,14); (1774965861,14); (1774747230,14); (1774528624,14); (1774310042,14);
(1774091485,14); (1773872952,14); (1773654443,14); (1773435959,14); (1773217499,14); (1772999063,14); (1772780652,14); (1772562265,14);
(1772343903,14); (1772125564,14); (1771907250,14); (1771688961,14); (1771470695,14); (1771252454,14); (1771034237,14); (1770816045,14);
(1770597877,14); (1770379733,14); (1770161613,14); (1769943518,14); (1769725447,14); (1769507401,14); (1769289378,14); (1769071380,14);
(1768853406,14); (1768635456,14); (1768417531,14); (1768199630,14); (1767981753,14); (1767763900,14); (1767546072,14); (1767328268,14);
(1767110488,14); (1766892732,14); (1766675001,14); (1766457293,14); (1766239610,14); (1766021952,14); (1765804317,14); (1765586707,14);
(1765369120,14); (1765151558,14); (1764934021,14); (1764716507,14); (1764499017,14); (1764281552,14); (1764064111,14); (1763846694,14);
(1763629301,14); (1763411933,14); (1763194588,14); (1762977268,14); (1762759972,14); (1762542700,14); (1762325452,14); (1762108229,14);
(1761891029,14); (1761673854,14); (1761456702,14); (1761239575,14); (1761022472,14); (1760805393,14); (1760588338,14); (1760371308,14);
(1760154301,14); (1759937319,14); (1759720360,14); (1759503426,14); (1759286516,14); (1759069629,14); (1758852767,14); (1758635929,14);
(1758419115,14); (1758202326,14); (1757985560,14); (1757768818,14); (1757552100,14); (1757335407,14); (1757118737,14); (1756902092,14);
(1756685470,14); (1756468873,14); (1756252299,14); (1756035750,14); (1755819225,14); (1755602723,14); (1755386246,14); (1755169793,14);
(1754953363,14); (1754736958,14); (1754520577,14); (1754304219,14); (1754087886,14); (1753871577,14); (1753655291,14); (1753439030,14);
(1753222793,14); (1753006579,14); (1752790390,14); (1752574224,14); (1752358083,14); (1752141965,14); (1751925871,14); (1751709802,14);
(1751493756,14); (1751277734,14); (1751061736,14); (1750845762,14); (1750629812,14); (1750413886,14); (1750197984,14); (1749982106,14);
(1749766252,14); (1749550421,14); (1749334615,14); (1749118832,14); (1748903073,14); (1748687338,14); (1748471628,14); (1748255940,14);
(1748040277,14); (1747824638,14); (1747609023,14); (1747393431,14); (1747177863,14); (1746962319,14); (1746746800,14); (1746531303,14);
(1746315831,14); (1746100383,14); (1745884958,14); (1745669557,14); (1745454180,14); (1745238827,14); (1745023498,14); (1744808193,14);
(1744592911,14); (1744377653,14); (1744162419,14); (1743947209,14); (1743732023,14); (1743516860,14); (1743301721,14); (1743086606,14);
(1742871515,14); (1742656447,14); (1742441404,14); (1742226384,14); (1742011388,14); (1741796415,14); (1741581467,14); (1741366542,14);
(1741151641,14); (1740936763,14); (1740721910,14); (1740507080,14); (1740292274,14); (1740077492,14); (1739862733,14); (1739647998,14);
(1739433287,14); (1739218599,14); (1739003935,14); (1738789295,14); (1738574679,14); (1738360086,14); (1738145517,14); (1737930972,14);
(1737716451,14); (1737501953,14); (1737287479,14); (1737073028,14); (1736858601,14); (1736644198,14); (1736429819,14); (1736215463,14);
(1736001131,14); (1735786822,14); (1735572537,14); (1735358276,14); (1735144038,14); (1734929824,14); (1734715634,14); (1734501467,14);
(1734287324,14); (1734073205,14); (1733859109,14); (1733645037,14); (1733430988,14); (1733216963,14); (1733002962,14); (1732788984,14);
(1732575030,14); (1732361100,14); (1732147193,14); (1731933309,14); (1731719449,14); (1731505613,14); (1731291801,14); (1731078011,14);
(1730864246,14); (1730650504,14); (1730436786,14); (1730223091,14); (1730009419,14); (1729795772,14); (1729582147,14); (1729368547,14);
(1729154970,14); (1728941416,14); (1728727886,14); (1728514379,14); (1728300896,14); (1728087437,14); (1727874001,14); (1727660588,14);
(1727447199,14); (1727233834,14); (1727020492,14); (1726807173,14); (1726593878,14); (1726380607,14); (1726167359,14); (1725954134,14);
(1725740933,14); (1725527755,14); (1725314601,14); (1725101470,14); (1724888363,14); (1724675279,14); (1724462219,14); (1724249182,14);
(1724036169,14); (1723823179,14); (1723610212,14); (1723397269,14); (1723184349,14); (1722971453,14); (1722758580,14); (1722545730,14);
(1722332904,14); (1722120102,14); (1721907322,14); (1721694566,14); (1721481834,14); (1721269125,14); (1721056439,14); (1720843777,14);
(1720631138,14); (1720418522,14); (1720205930,14); (1719993361,14); (1719780816,14); (1719568294,14); (1719355795,14); (1719143320,14);
(1718930868,14); (1718718439,14); (1718506034,14); (1718293652,14); (1718081293,14); (1717868958,14); (1717656646,14); (1717444357,14);
(1717232092,14); (1717019850,14); (1716807631,14); (1716595435,14); (1716383263,14); (1716171114,14); (1715958989,14); (1715746887,14);
(1715534808,14); (1715322752,14); (1715110719,14); (1714898710,14); (1714686724,14); (1714474762,14); (1714262823,14); (1714050907,14);
(1713839014,14); (1713627144,14); (1713415298,14); (1713203475,14); (1712991675,14); (1712779898,14); (1712568145,14); (1712356415,14);
(1712144708,14); (1711933024,14); (1711721364,14); (1711509727,14); (1711298113,14); (1711086522,14); (1710874954,14); (1710663410,14);
(1710451889,14); (1710240391,14); (1710028916,14); (1709817464,14); (1709606036,14); (1709394630,14); (1709183248,14); (1708971889,14);
(1708760553,14); (1708549241,14); (1708337951,14); (1708126685,14); (1707915442,14); (1707704222,14); (1707493025,14); (1707281851,14);
(1707070701,14); (1706859573,14); (1706648469,14); (1706437387,14); (1706226329,14); (1706015294,14); (1705804283,14); (1705593294,14);
(1705382328,14); (1705171385,14); (1704960466,14); (1704749570,14); (1704538696,14); (1704327846,14); (1704117019,14); (1703906215,14);
(1703695434,14); (1703484676,14); (1703273941,14); (1703063230,14); (1702852541,14); (1702641875,14); (1702431233,14); (1702220613,14);
(1702010016,14); (1701799443,14); (1701588893,14); (1701378365,14); (1701167861,14); (1700957379,14); (1700746921,14); (1700536486,14);
(1700326074,14); (1700115684,14); (1699905318,14); (1699694975,14); (1699484654,14); (1699274357,14); (1699064083,14); (1698853831,14);
(1698643603,14); (1698433398,14); (1698223215,14); (1698013056,14); (1697802920,14); (1697592806,14); (1697382716,14); (1697172648,14);
(1696962603,14); (1696752582,14); (1696542583,14); (1696332607,14); (1696122655,14); (1695912725,14); (1695702818,14); (1695492934,14);
(1695283073,14); (1695073234,14); (1694863419,14); (1694653627,14); (1694443857,14); (1694234111,14); (1694024387,14); (1693814686,14);
(1693605008,14); (1693395354,14); (1693185721,14); (1692976112,14); (1692766526,14); (1692556962,14); (1692347422,14); (1692137904,14);
(1691928409,14); (1691718937,14); (1691509488,14); (1691300062,14); (1691090659,14); (1690881278,14); (1690671920,14); (1690462585,14);
(1690253273,14); (1690043984,14); (1689834718,14); (1689625474,14); (1689416253,14); (1689207055,14); (1688997880,14); (1688788728,14);
(1688579598,14); (1688370491,14); (1688161407,14); (1687952346,14); (1687743308,14); (1687534292,14); (1687325300,14); (1687116329,14);
(1686907382,14); (1686698458,14); (1686489556,14); (1686280677,14); (1686071821,14); (1685862987,14); (1685654177,14); (1685445389,14);
(1685236624,14); (1685027881,14); (1684819161,14); (1684610464,14); (1684401790,14); (1684193139,14); (1683984510,14); (1683775904,14);
(1683567320,14); (1683358760,14); (1683150222,14); (1682941706,14); (1682733214,14); (1682524744,14); (1682316297,14); (1682107872,14);
(1681899471,14); (1681691091,14); (1681482735,14); (1681274401,14); (1681066090,14); (1680857802,14); (1680649536,14); (1680441293,14);
(1680233072,14); (1680024875,14); (1679816699,14); (1679608547,14); (1679400417,14); (1679192310,14); (1678984225,14); (1678776163,14);
(1678568124,14); (1678360107,14); (1678152113,14); (1677944141,14); (1677736193,14); (1677528266,14); (1677320363,14); (1677112482,14);
(1676904623,14); (1676696787,14); (1676488974,14); (1676281183,14); (1676073415,14); (1675865669,14); (1675657946,14); (1675450246,14);
(1675242568,14); (1675034913,14); (1674827280,14); (1674619670,14); (1674412082,14); (1674204517,14); (1673996975,14); (1673789455,14);
(1673581957,14); (1673374482,14); (1673167030,14); (1672959600,14); (1672752193,14); (1672544808,14); (1672337446,14); (1672130106,14);
(1671922789,14); (1671715494,14); (1671508221,14); (1671300972,14); (1671093744,14); (1670886540,14); (1670679357,14); (1670472197,14)].

(** entries 18432..20479 *)
Definition RECIPROCAL_9 : list (Z * Z) := [
(1670265060,14); (1670057945,14); (1669850853,14); (1669643783,14); (1669436735,14); (1669229710,14); (1669022708,14); (1668815728,14);
(1668608770,14); (1668401835,14); (1668194922,14); (1667988032,14); (1667781164,14); (1667574318,14); (1667367495,14); (1667160695,14);
(1666953916,14); (1666747161,14); (1666540427,14); (1666333716,14); (1666127028,14); (1665920361,14); (1665713718,14); (1665507096,14);
(1665300497,14); (1665093921,14); (1664887367,14); (1664680835,14); (1664474325,14); (1664267838,14); (1664061373,14); (1663854931,14);
(1663648511,14); (1663442114,14); (1663235738,14); (1663029385,14); (1662823055,14); (1662616747,14); (1662410461,14); (1662204197,14);
(1661997956,14); (1661791737,14); (1661585540,14); (1661379366,14); (1661173214,14); (1660967085,14); (1660760977,14); (1660554892,14);
(1660348830,14); (1660142789,14); (1659936771,14); (1659730775,14); (1659524802,14); (1659318851,14); (1659112922,14); (1658907015,14);
(1658701131,14); (1658495268,14); (1658289429,14); (1658083611,14); (1657877816,14); (1657672043,14); (1657466292,14); (1657260563,14);
(1657054857,14); (1656849173,14); (1656643511,14); (1656437871,14); (1656232254,14); (1656026659,14); (1655821086,14); (1655615535,14);
(1655410007,14); (1655204500,14); (1654999016,14); (1654793555,14); (1654588115,14); (1654382697,14); (1654177302,14); (1653971929,14);
(1653766578,14); (1653561249,14); (1653355943,14); (1653150659,14); (1652945396,14); (1652740156,14); (1652534939,14); (1652329743,14);
(1652124569,14); (1651919418,14); (1651714289,14); (1651509182,14); (1651304097,14); (1651099034,14); (1650893994,14); (1650688975,14);
(1650483979,14); (1650279004,14); (1650074052,14); (1649869122,14); (1649664214,14); (1649459329,14); (1649254465,14); (1649049623,14);
(1648844804,14); (1648640007,14); (1648435231,14); (1648230478,14); (1648025747,14); (1647821038,14); (1647616351,14); (1647411686,14);
(1647207044,14); (1647002423,14); (1646797824,14); (1646593248,14); (1646388693,14); (1646184161,14); (1645979650,14); (1645775162,14);
(1645570696,14); (1645366252,14); (1645161829,14); (1644957429,14); (1644753051,14); (1644548695,14); (1644344361,14); (1644140049,14);
(1643935759,14); (1643731491,14); (1643527245,14); (1643323020,14); (1643118818,14); (1642914638,14); (1642710480,14); (1642506344,14);
(1642302230,14); (1642098138,14); (1641894068,14); (1641690020,14); (1641485994,14); (1641281990,14); (1641078007,14); (1640874047,14);
(1640670109,14); (1640466192,14); (1640262298,14); (1640058426,14); (1639854575,14); (1639650747,14); (1639446940,14); (1639243155,14);
(1639039393,14); (1638835652,14); (1638631933,14); (1638428236,14); (1638224561,14); (1638020908,14); (1637817277,14); (1637613667,14);
(1637410080,14); (1637206514,14); (1637002971,14); (1636799449,14); (1636595949,14); (1636392471,14); (1636189015,14); (1635985581,14);
(1635782169,14); (1635578778,14); (1635375409,14); (1635172063,14); (1634968738,14); (1634765435,14); (1634562154,14); (1634358894,14);
(1634155657,14); (1633952441,14); (1633749248,14); (1633546076,14); (1633342926,14); (1633139797,14); (1632936691,14); (1632733606,14);
(1632530543,14); (1632327502,14); (1632124483,14); (1631921486,14); (1631718510,14); (1631515556,14); (1631312625,14); (1631109714,14);
(1630906826,14); (1630703959,14); (1630501115,14); (1630298291,14); (1630095490,14); (1629892711,14); (1629689953,14); (1629487217,14);
(1629284503,14); (1629081810,14); (1628879140,14); (1628676491,14); (1628473864,14); (1628271258,14); (1628068675,14); (1627866113,14);
(1627663572,14); (1627461054,14); (1627258557,14); (1627056082,14); (1626853629,14); (1626651197,14); (1626448787,14); (1626246399,14);
(1626044033,14); (1625841688,14); (1625639365,14); (1625437063,14); (1625234784,14); (1625032526,14); (1624830289,14); (1624628075,14);
(1624425882,14); (1624223710,14); (1624021561,14); (1623819433,14); (1623617327,14); (1623415242,14); (1623213179,14); (1623011138,14);
(1622809118,14); (1622607120,14); (1622405144,14); (1622203189,14); (1622001256,14); (1621799345,14); (1621597455,14); (1621395586,14);
(1621193740,14); (1620991915,14); (1620790112,14); (1620588330,14); (1620386570,14); (1620184831,14); (1619983114,14); (1619781419,14);
(1619579745,14); (1619378093,14); (1619176463,14); (1618974854,14); (1618773266,14); (1618571701,14); (1618370156,14); (1618168634,14);
(1617967133,14); (1617765653,14); (1617564195,14); (1617362759,14); (1617161344,14); (1616959951,14); (1616758579,14); (1616557229,14);
(1616355900,14); (1616154593,14); (1615953307,14); (1615752043,14); (1615550801,14); (1615349579,14); (1615148380,14); (1614947202,14);
(1614746045,14); (1614544911,14); (1614343797,14); (1614142705,14); (1613941635,14); (1613740586,14); (1613539558,14); (1613338552,14);
(1613137568,14); (1612936605,14); (1612735663,14); (1612534743,14); (1612333844,14); (1612132967,14); (1611932112,14); (1611731277,14);
(1611530465,14); (1611329673,14); (1611128903,14); (1610928155,14); (1610727428,14); (1610526722,14); (1610326038,14); (1610125376,14);
(1609924734,14); (1609724115,14); (1609523516,14); (1609322939,14); (1609122384,14); (1608921850,14); (1608721337,14); (1608520846,14);
(1608320376,14); (1608119927,14); (1607919500,14); (1607719094,14); (1607518710,14); (1607318347,14); (1607118005,14); (1606917685,14);
(1606717386,14); (1606517109,14); (1606316853,14); (1606116618,14); (1605916405,14); (1605716213,14); (1605516042,14); (1605315893,14);
(1605115765,14); (1604915658,14); (1604715573,14); (1604515509,14); (1604315466,14); (1604115445,14); (1603915445,14); (1603715466,14);
(1603515509,14); (1603315573,14); (1603115658,14); (1602915765,14); (1602715893,14); (1602516042,14); (1602316213,14); (1602116405,14);
(1601916618,14); (1601716852,14); (1601517108,14); (1601317385,14); (1601117683,14); (1600918003,14); (1600718343,14); (1600518706,14);
(1600319089,14); (1600119493,14); (1599919919,14); (1599720366,14); (1599520835,14); (1599321324,14); (1599121835,14); (1598922367,14);
(1598722921,14); (1598523495,14); (1598324091,14); (1598124708,14); (1597925346,14); (1597726006,14); (1597526687,14); (1597327389,14);
(1597128112,14); (1596928856,14); (1596729622,14); (1596530408,14); (1596331216,14); (1596132045,14); (1595932896,14); (1595733767,14);
(1595534660,14); (1595335574,14); (1595136509,14); (1594937465,14); (1594738442,14); (1594539441,14); (1594340461,14); (1594141502,14);
(1593942564,14); (1593743647,14); (1593544751,14); (1593345877,14); (1593147023,14); (1592948191,14); (1592749380,14); (1592550590,14);
(1592351821,14); (1592153073,14); (1591954347,14); (1591755641,14); (1591556957,14); (1591358294,14); (1591159652,14); (1590961031,14);
(1590762431,14); (1590563852,14); (1590365294,14); (1590166758,14); (1589968242,14); (1589769748,14); (1589571274,14); (1589372822,14);
(1589174391,14); (1588975981,14); (1588777592,14); (1588579224,14); (1588380877,14); (1588182551,14); (1587984246,14); (1587785962,14);
(1587587700,14); (1587389458,14); (1587191237,14); (1586993038,14); (1586794859,14); (1586596702,14); (1586398565,14); (1586200450,14);
(1586002355,14); (1585804282,14); (1585606229,14); (1585408198,14); (1585210188,14); (1585012198,14); (1584814230,14); (1584616282,14);
(1584418356,14); (1584220451,14); (1584022566,14); (1583824703,14); (1583626860,14); (1583429039,14); (1583231238,14); (1583033459,14);
(1582835700,14); (1582637963,14); (1582440246,14); (1582242550,14); (1582044876,14); (1581847222,14); (1581649589,14); (1581451977,14);
(1581254387,14); (1581056817,14); (1580859267,14); (1580661739,14); (1580464232,14); (1580266746,14); (1580069281,14); (1579871836,14);
(1579674413,14); (1579477010,14); (1579279629,14); (1579082268,14); (1578884928,14); (1578687609,14); (1578490311,14); (1578293034,14);
(1578095777,14); (1577898542,14); (1577701327,14); (1577504134,14); (1577306961,14); (1577109809,14); (1576912678,14); (1576715568,14);
(1576518479,14); (1576321410,14); (1576124363,14); (1575927336,14); (1575730330,14); (1575533345,14); (1575336381,14); (1575139438,14);
(1574942515,14); (1574745613,14); (1574548733,14); (1574351873,14); (1574155033,14); (1573958215,14); (1573761417,14); (1573564641,14);
(1573367885,14); (1573171150,14); (1572974435,14); (1572777742,14); (1572581069,14); (1572384417,14); (1572187786,14); (1571991176,14);
(1571794586,14); (1571598017,14); (1571401469,14); (1571204942,14); (1571008435,14); (1570811950,14); (1570615485,14); (1570419041,14);
(1570222617,14); (1570026214,14); (1569829833,14); (1569633471,14); (1569437131,14); (1569240811,14); (1569044512,14); (1568848234,14);
(1568651977,14); (1568455740,14); (1568259524,14); (1568063328,14); (1567867154,14); (1567671000,14); (1567474867,14); (1567278754,14);
(1567082663,14); (1566886591,14); (1566690541,14); (1566494511,14); (1566298502,14); (1566102514,14); (1565906547,14); (1565710600,14);
(1565514673,14); (1565318768,14); (1565122883,14); (1564927019,14); (1564731175,14); (1564535352,14); (1564339550,14); (1564143768,14);
(1563948007,14); (1563752267,14); (1563556548,14); (1563360849,14); (1563165170,14); (1562969512,14); (1562773875,14); (1562578259,14);
(1562382663,14); (1562187088,14); (1561991533,14); (1561795999,14); (1561600486,14); (1561404993,14); (1561209521,14); (1561014069,14);
(1560818638,14); (1560623228,14); (1560427838,14); (1560232469,14); (1560037121,14); (1559841793,14); (1559646485,14); (1559451198,14);
(1559255932,14); (1559060686,14); (1558865461,14); (1558670257,14); (1558475073,14); (1558279909,14); (1558084766,14); (1557889644,14);
(1557694542,14); (1557499461,14); (1557304400,14); (1557109360,14); (1556914340,14); (1556719341,14); (1556524363,14); (1556329405,14);
(1556134467,14); (1555939550,14); (1555744654,14); (1555549778,14); (1555354922,14); (1555160087,14); (1554965273,14); (1554770479,14);
(1554575705,14); (1554380952,14); (1554186220,14); (1553991508,14); (1553796816,14); (1553602145,14); (1553407495,14); (1553212865,14);
(1553018255,14); (1552823666,14); (1552629097,14); (1552434549,14); (1552240021,14); (1552045514,14); (1551851027,14); (1551656561,14);
(1551462115,14); (1551267689,14); (1551073284,14); (1550878899,14); (1550684535,14); (1550490191,14); (1550295868,14); (1550101565,14);
(1549907282,14); (1549713020,14); (1549518779,14); (1549324557,14); (1549130356,14); (1548936176,14); (1548742016,14); (1548547876,14);
(1548353757,14); (1548159658,14); (1547965579,14); (1547771521,14); (1547577483,14); (1547383466,14); (1547189469,14); (1546995492,14);
(1546801536,14); (1546607600,14); (1546413685,14); (1546219789,14); (1546025915,14); (1545832060,14); (1545638226,14); (1545444412,14);
(1545250619,14); (1545056846,14); (1544863093,14); (1544669360,14); (1544475648,14); (1544281956,14); (1544088285,14); (1543894634,14);
(1543701003,14); (1543507393,14); (1543313802,14); (1543120232,14); (1542926683,14); (1542733153,14); (1542539644,14); (1542346156,14);
(1542152687,14); (1541959239,14); (1541765811,14); (1541572404,14); (1541379016,14); (1541185649,14); (1540992303,14); (1540798976,14);
(1540605670,14); (1540412384,14); (1540219118,14); (1540025873,14); (1539832648,14); (1539639443,14); (1539446258,14); (1539253094,14);
(1539059949,14); (1538866825,14); (1538673722,14); (1538480638,14); (1538287575,14); (1538094532,14); (1537901509,14); (1537708506,14);
(1537515524,14); (1537322562,14); (1537129620,14); (1536936698,14); (1536743796,14); (1536550915,14); (1536358054,14); (1536165213,14);
(1535972392,14); (1535779591,14); (1535586811,14); (1535394051,14); (1535201311,14); (1535008591,14); (1534815891,14); (1534623211,14);
(1534430552,14); (1534237913,14); (1534045293,14); (1533852695,14); (1533660116,14); (1533467557,14); (1533275019,14); (1533082500,14);
(1532890002,14); (1532697524,14); (1532505066,14); (1532312628,14); (1532120210,14); (1531927813,14); (1531735435,14); (1531543078,14);
(1531350741,14); (1531158424,14); (1530966127,14); (1530773850,14); (1530581593,14); (1530389356,14); (1530197139,14); (1530004943,14);
(1529812766,14); (1529620610,14); (1529428474,14); (1529236358,14); (1529044261,14); (1528852185,14); (1528660129,14); (1528468093,14);
(1528276078,14); (1528084082,14); (1527892106,14); (1527700150,14); (1527508215,14); (1527316299,14); (1527124404,14); (1526932528,14);
(1526740673,14); (1526548837,14); (1526357022,14); (1526165226,14); (1525973451,14); (1525781696,14); (1525589960,14); (1525398245,14);
(1525206550,14); (1525014874,14); (1524823219,14); (1524631584,14); (1524439969,14); (1524248373,14); (1524056798,14); (1523865243,14);
(1523673707,14); (1523482192,14); (1523290697,14); (1523099221,14); (1522907766,14); (1522716330,14); (1522524915,14); (1522333520,14);
(1522142144,14); (1521950788,14); (1521759453,14); (1521568137,14); (1521376841,14); (1521185566,14); (1520994310,14); (1520803074,14);
(1520611858,14); (1520420662,14); (1520229486,14); (1520038330,14); (1519847194,14); (1519656077,14); (1519464981,14); (1519273904,14);
(1519082848,14); (1518891811,14); (1518700794,14); (1518509798,14); (1518318821,14); (1518127864,14); (1517936926,14); (1517746009,14);
(1517555112,14); (1517364234,14); (1517173377,14); (1516982539,14); (1516791721,14); (1516600923,14); (1516410145,14); (1516219387,14);
(1516028648,14); (1515837930,14); (1515647231,14); (1515456552,14); (1515265893,14); (1515075254,14); (1514884635,14); (1514694035,14);
(1514503456,14); (1514312896,14); (1514122356,14); (1513931836,14); (1513741336,14); (1513550855,14); (1513360395,14); (1513169954,14);
(1512979533,14); (1512789132,14); (1512598750,14); (1512408389,14); (1512218047,14); (1512027725,14); (1511837423,14); (1511647140,14);
(1511456878,14); (1511266635,14); (1511076412,14); (1510886208,14); (1510696025,14); (1510505861,14); (1510315717,14); (1510125593,14);
(1509935489,14); (1509745404,14); (1509555339,14); (1509365294,14); (1509175268,14); (1508985263,14); (1508795277,14); (1508605311,14);
(1508415364,14); (1508225438,14); (1508035531,14); (1507845643,14); (1507655776,14); (1507465928,14); (1507276100,14); (1507086292,14);
(1506896503,14); (1506706734,14); (1506516985,14); (1506327255,14); (1506137546,14); (1505947855,14); (1505758185,14); (1505568534,14);
(1505378903,14); (1505189292,14); (1504999700,14); (1504810128,14); (1504620576,14); (1504431043,14); (1504241530,14); (1504052037,14);
(1503862563,14); (1503673110,14); (1503483675,14); (1503294261,14); (1503104866,14); (1502915490,14); (1502726135,14); (1502536798,14);
(1502347482,14); (1502158185,14); (1501968908,14); (1501779651,14); (1501590413,14); (1501401194,14); (1501211996,14); (1501022817,14);
(1500833657,14); (1500644518,14); (1500455397,14); (1500266297,14); (1500077216,14); (1499888155,14); (1499699113,14); (1499510091,14);
(1499321088,14); (1499132105,14); (1498943142,14); (1498754198,14); (1498565274,14); (1498376369,14); (1498187484,14); (1497998618,14);
(1497809772,14); (1497620946,14); (1497432139,14); (1497243352,14); (1497054584,14); (1496865836,14); (1496677107,14); (1496488398,14);
(1496299709,14); (1496111039,14); (1495922388,14); (1495733758,14); (1495545146,14); (1495356554,14); (1495167982,14); (1494979429,14);
(1494790896,14); (1494602382,14); (1494413888,14); (1494225413,14); (1494036958,14); (1493848522,14); (1493660106,14); (1493471709,14);
(1493283332,14); (1493094974,14); (1492906636,14); (1492718317,14); (1492530018,14); (1492341738,14); (1492153478,14); (1491965237,14);
(1491777015,14); (1491588813,14); (1491400631,14); (1491212468,14); (1491024324,14); (1490836200,14); (1490648096,14); (1490460011,14);
(1490271945,14); (1490083899,14); (1489895872,14); (1489707864,14); (1489519876,14); (1489331908,14); (1489143959,14); (1488956029,14);
(1488768119,14); (1488580228,14); (1488392356,14); (1488204504,14); (1488016672,14); (1487828858,14); (1487641065,14); (1487453290,14);
(1487265535,14); (1487077800,14); (1486890083,14); (1486702387,14); (1486514709,14); (1486327051,14); (1486139412,14); (1485951793,14);
(1485764193,14); (1485576613,14); (1485389051,14); (1485201510,14); (1485013987,14); (1484826484,14); (1484639000,14); (1484451536,14);
(1484264091,14); (1484076665,14); (1483889259,14); (1483701872,14); (1483514504,14); (1483327156,14); (1483139827,14); (1482952517,14);
(1482765227,14); (1482577956,14); (1482390704,14); (1482203472,14); (1482016259,14); (1481829065,14); (1481641890,14); (1481454735,14);
(1481267599,14); (1481080483,14); (1480893385,14); (1480706308,14); (1480519249,14); (1480332209,14); (1480145189,14); (1479958189,14);
(1479771207,14); (1479584245,14); (1479397302,14); (1479210378,14); (1479023474,14); (1478836588,14); (1478649722,14); (1478462876,14);
(1478276048,14); (1478089240,14); (1477902451,14); (1477715682,14); (1477528931,14); (1477342200,14); (1477155488,14); (1476968795,14);
(1476782122,14); (1476595468,14); (1476408833,14); (1476222217,14); (1476035620,14); (1475849043,14); (1475662485,14); (1475475946,14);
(1475289426,14); (1475102925,14); (1474916444,14); (1474729982,14); (1474543539,14); (1474357115,14); (1474170711,14); (1473984325,14);
(1473797959,14); (1473611612,14); (1473425284,14); (1473238975,14); (1473052686,14); (1472866416,14); (1472680165,14); (1472493933,14);
(1472307720,14); (1472121526,14); (1471935351,14); (1471749196,14); (1471563060,14); (1471376943,14); (1471190845,14); (1471004766,14);
(1470818706,14); (1470632666,14); (1470446644,14); (1470260642,14); (1470074659,14); (1469888695,14); (1469702750,14); (1469516824,14);
(1469330918,14); (1469145030,14); (1468959162,14); (1468773312,14); (1468587482,14); (1468401671,14); (1468215879,14); (1468030106,14);
(1467844352,14); (1467658617,14); (1467472901,14); (1467287205,14); (1467101527,14); (1466915869,14); (1466730229,14); (1466544609,14);
(1466359007,14); (1466173425,14); (1465987862,14); (1465802318,14); (1465616793,14); (1465431287,14); (1465245800,14); (1465060332,14);
(1464874883,14); (1464689453,14); (1464504043,14); (1464318651,14); (1464133278,14); (1463947924,14); (1463762590,14); (1463577274,14);
(1463391977,14); (1463206700,14); (1463021441,14); (1462836202,14); (1462650981,14); (1462465779,14); (1462280597,14); (1462095433,14);
(1461910289,14); (1461725163,14); (1461540056,14); (1461354969,14); (1461169900,14); (1460984850,14); (1460799820,14); (1460614808,14);
(1460429815,14); (1460244841,14); (1460059887,14); (1459874951,14); (1459690034,14); (1459505136,14); (1459320257,14); (1459135397,14);
(1458950556,14); (1458765734,14); (1458580931,14); (1458396146,14); (1458211381,14); (1458026635,14); (1457841907,14); (1457657199,14);
(1457472509,14); (1457287838,14); (1457103187,14); (1456918554,14); (1456733940,14); (1456549345,14); (1456364769,14); (1456180212,14);
(1455995673,14); (1455811154,14); (1455626653,14); (1455442172,14); (1455257709,14); (1455073265,14); (1454888840,14); (1454704434,14);
(1454520047,14); (1454335679,14); (1454151329,14); (1453966999,14); (1453782687,14); (1453598394,14); (1453414120,14); (1453229865,14);
(1453045629,14); (1452861411,14); (1452677213,14); (1452493033,14); (1452308872,14); (1452124730,14); (1451940607,14); (1451756503,14);
(1451572417,14); (1451388351,14); (1451204303,14); (1451020274,14); (1450836263,14); (1450652272,14); (1450468299,14); (1450284346,14);
(1450100411,14); (1449916495,14); (1449732597,14); (1449548719,14); (1449364859,14); (1449181018,14); (1448997196,14); (1448813392,14);
(1448629608,14); (1448445842,14); (1448262095,14); (1448078367,14); (1447894657,14); (1447710966,14); (1447527294,14); (1447343641,14);
(1447160007,14); (1446976391,14); (1446792794,14); (1446609216,14); (1446425657,14); (1446242116,14); (1446058594,14); (1445875091,14);
(1445691607,14); (1445508141,14); (1445324694,14); (1445141266,14); (1444957856,14); (1444774466,14); (1444591094,14); (1444407740,14);
(1444224406,14); (1444041090,14); (1443857793,14); (1443674514,14); (1443491254,14); (1443308013,14); (1443124791,14); (1442941587,14);
(1442758402,14); (1442575236,14); (1442392089,14); (1442208960,14); (1442025849,14); (1441842758,14); (1441659685,14); (1441476631,14);
(1441293595,14); (1441110579,14); (1440927580,14); (1440744601,14); (1440561640,14); (1440378698,14); (1440195774,14); (1440012869,14);
(1439829983,14); (1439647115,14); (1439464267,14); (1439281436,14); (1439098625,14); (1438915832,14); (1438733057,14); (1438550301,14);
(1438367564,14); (1438184846,14); (1438002146,14); (1437819464,14); (1437636802,14); (1437454158,14); (1437271532,14); (1437088925,14);
(1436906337,14); (1436723767,14); (1436541216,14); (1436358684,14); (1436176170,14); (1435993675,14); (1435811198,14); (1435628740,14);
(1435446300,14); (1435263879,14); (1435081477,14); (1434899093,14); (1434716728,14); (1434534381,14); (1434352053,14); (1434169744,14);
(1433987453,14); (1433805180,14); (1433622926,14); (1433440691,14); (1433258474,14); (1433076276,14); (1432894096,14); (1432711935,14);
(1432529793,14); (1432347668,14); (1432165563,14); (1431983476,14); (1431801407,14); (1431619357,14); (1431437326,14); (1431255313,14);
(1431073318,14); (1430891342,14); (1430709385,14); (1430527446,14); (1430345526,14); (1430163624,14); (1429981740,14); (1429799875,14);
(1429618029,14); (1429436201,14); (1429254391,14); (1429072600,14); (1428890828,14); (1428709074,14); (1428527338,14); (1428345621,14);
(1428163923,14); (1427982242,14); (1427800581,14); (1427618937,14); (1427437313,14); (1427255706,14); (1427074118,14); (1426892549,14);
(1426710998,14); (1426529465,14); (1426347951,14); (1426166455,14); (1425984978,14); (1425803519,14); (1425622079,14); (1425440657,14);
(1425259253,14); (1425077868,14); (1424896502,14); (1424715153,14); (1424533823,14); (1424352512,14); (1424171219,14); (1423989944,14);
(1423808688,14); (1423627450,14); (1423446231,14); (1423265030,14); (1423083847,14); (1422902682,14); (1422721537,14); (1422540409,14);
(1422359300,14); (1422178209,14); (1421997137,14); (1421816083,14); (1421635047,14); (1421454030,14); (1421273031,14); (1421092050,14);
(1420911088,14); (1420730144,14); (1420549218,14); (1420368311,14); (1420187422,14); (1420006552,14); (1419825699,14); (1419644866,14);
(1419464050,14); (1419283253,14); (1419102474,14); (1418921713,14); (1418740971,14); (1418560247,14); (1418379542,14); (1418198855,14);
(1418018186,14); (1417837535,14); (1417656903,14); (1417476289,14); (1417295693,14); (1417115115,14); (1416934556,14); (1416754015,14);
(1416573493,14); (1416392988,14); (1416212502,14); (1416032035,14); (1415851585,14); (1415671154,14); (1415490741,14); (1415310347,14);
(1415129970,14); (1414949612,14); (1414769272,14); (1414588951,14); (1414408647,14); (1414228362,14); (1414048095,14); (1413867847,14);
(1413687617,14); (1413507404,14); (1413327211,14); (1413147035,14); (1412966878,14); (1412786738,14); (1412606617,14); (1412426515,14);
(1412246430,14); (1412066364,14); (1411886316,14); (1411706286,14); (1411526274,14); (1411346281,14); (1411166306,14); (1410986349,14);
(1410806410,14); (1410626489,14); (1410446587,14); (1410266703,14); (1410086837,14); (1409906989,14); (1409727159,14); (1409547348,14);
(1409367554,14); (1409187779,14); (1409008022,14); (1408828283,14); (1408648563,14); (1408468860,14); (1408289176,14); (1408109510,14);
(1407929862,14); (1407750232,14); (1407570620,14); (1407391027,14); (1407211451,14); (1407031894,14); (1406852355,14); (1406672834,14);
(1406493331,14); (1406313846,14); (1406134380,14); (1405954931,14); (1405775501,14); (1405596089,14); (1405416695,14); (1405237319,14);
(1405057961,14); (1404878621,14); (1404699299,14); (1404519996,14); (1404340710,14); (1404161443,14); (1403982194,14); (1403802963,14);
(1403623749,14); (1403444554,14); (1403265378,14); (1403086219,14); (1402907078,14); (1402727955,14); (1402548851,14); (1402369764,14);
(1402190696,14); (1402011645,14); (1401832613,14); (1401653599,14); (1401474602,14); (1401295624,14); (1401116664,14); (1400937722,14);
(1400758798,14); (1400579892,14); (1400401004,14); (1400222134,14); (1400043282,14); (1399864448,14); (1399685633,14); (1399506835,14);
(1399328055,14); (1399149293,14); (1398970550,14); (1398791824,14); (1398613116,14); (1398434426,14); (1398255755,14); (1398077101,14);
(1397898465,14); (1397719848,14); (1397541248,14); (1397362666,14); (1397184103,14); (1397005557,14); (1396827029,14); (1396648520,14);
(1396470028,14); (1396291554,14); (1396113098,14); (1395934660,14); (1395756241,14); (1395577839,14); (1395399455,14); (1395221089,14);
(1395042741,14); (1394864411,14); (1394686099,14); (1394507805,14); (1394329528,14); (1394151270,14); (1393973030,14); (1393794807,14);
(1393616603,14); (1393438416,14); (1393260248,14); (1393082097,14); (1392903965,14); (1392725850,14); (1392547753,14); (1392369674,14);
(1392191613,14); (1392013570,14); (1391835545,14); (1391657537,14); (1391479548,14); (1391301576,14); (1391123623,14); (1390945687,14);
(1390767769,14); (1390589869,14); (1390411987,14); (1390234123,14); (1390056277,14); (1389878449,14); (1389700638,14); (1389522845,14);
(1389345071,14); (1389167314,14); (1388989575,14); (1388811854,14); (1388634150,14); (1388456465,14); (1388278797,14); (1388101148,14);
(1387923516,14); (1387745902,14); (1387568306,14); (1387390727,14); (1387213167,14); (1387035624,14); (1386858099,14); (1386680592,14);
(1386503103,14); (1386325632,14); (1386148178,14); (1385970743,14); (1385793325,14); (1385615925,14); (1385438542,14); (1385261178,14);
(1385083831,14); (1384906502,14); (1384729191,14); (1384551898,14); (1384374623,14); (1384197365,14); (1384020125,14); (1383842903,14);
(1383665699,14); (1383488513,14); (1383311344,14); (1383134193,14); (1382957060,14); (1382779944,14); (1382602847,14); (1382425767,14);
(1382248705,14); (1382071661,14); (1381894634,14); (1381717625,14); (1381540634,14); (1381363661,14); (1381186705,14); (1381009768,14);
(1380832848,14); (1380655945,14); (1380479061,14); (1380302194,14); (1380125345,14); (1379948513,14); (1379771700,14); (1379594904,14);
(1379418126,14); (1379241365,14); (1379064622,14); (1378887897,14); (1378711190,14); (1378534500,14); (1378357828,14); (1378181174,14);
(1378004538,14); (1377827919,14); (1377651318,14); (1377474734,14); (1377298169,14); (1377121621,14); (1376945090,14); (1376768578,14);
(1376592083,14); (1376415605,14); (1376239146,14); (1376062704,14); (1375886279,14); (1375709873,14); (1375533484,14); (1375357112,14);
(1375180759,14); (1375004423,14); (1374828104,14); (1374651804,14); (1374475521,14); (1374299255,14); (1374123007,14); (1373946777,14);
(1373770565,14); (1373594370,14); (1373418193,14); (1373242033,14); (1373065891,14); (1372889767,14); (1372713660,14); (1372537571,14);
(1372361499,14); (1372185446,14); (1372009409,14); (1371833391,14); (1371657390,14); (1371481406,14); (1371305440,14); (1371129492,14);
(1370953561,14); (1370777648,14); (1370601753,14); (1370425875,14); (1370250015,14); (1370074172,14); (1369898347,14); (1369722539,14);
(1369546749,14); (1369370977,14); (1369195222,14); (1369019485,14); (1368843765,14); (1368668063,14); (1368492378,14); (1368316711,14);
(1368141062,14); (1367965430,14); (1367789815,14); (1367614218,14); (1367438639,14); (1367263077,14); (1367087533,14); (1366912006,14);
(1366736497,14); (1366561006,14); (1366385531,14); (1366210075,14); (1366034636,14); (1365859214,14); (1365683810,14); (1365508424,14);
(1365333055,14); (1365157703,14); (1364982369,14); (1364807053,14); (1364631754,14); (1364456472,14); (1364281208,14); (1364105962,14);
(1363930733,14); (1363755521,14); (1363580327,14); (1363405150,14); (1363229991,14); (1363054850,14); (1362879726,14); (1362704619,14);
(1362529530,14); (1362354458,14); (1362179404,14); (1362004367,14); (1361829348,14); (1361654346,14); (1361479361,14); (1361304394,14);
(1361129445,14); (1360954513,14); (1360779598,14); (1360604701,14); (1360429821,14); (1360254959,14); (1360080114,14); (1359905286,14);
(1359730476,14); (1359555684,14); (1359380908,14); (1359206151,14); (1359031410,14); (1358856687,14); (1358681982,14); (1358507294,14);
(1358332623,14); (1358157969,14); (1357983334,14); (1357808715,14); (1357634114,14); (1357459530,14); (1357284964,14); (1357110415,14);
(1356935883,14); (1356761369,14); (1356586872,14); (1356412393,14); (1356237931,14); (1356063486,14); (1355889059,14); (1355714649,14);
(1355540256,14); (1355365881,14); (1355191523,14); (1355017183,14); (1354842859,14); (1354668554,14); (1354494265,14); (1354319994,14);
(1354145740,14); (1353971504,14); (1353797285,14); (1353623083,14); (1353448899,14); (1353274732,14); (1353100582,14); (1352926449,14);
(1352752334,14); (1352578236,14); (1352404156,14); (1352230093,14); (1352056047,14); (1351882019,14); (1351708007,14); (1351534013,14);
(1351360037,14); (1351186077,14); (1351012135,14); (1350838211,14); (1350664303,14); (1350490413,14); (1350316540,14); (1350142685,14);
(1349968846,14); (1349795025,14); (1349621222,14); (1349447435,14); (1349273666,14); (1349099914,14); (1348926179,14); (1348752462,14);
(1348578762,14); (1348405079,14); (1348231413,14); (1348057765,14); (1347884134,14); (1347710520,14); (1347536924,14); (1347363344,14);
(1347189782,14); (1347016237,14); (1346842710,14); (1346669199,14); (1346495706,14); (1346322230,14); (1346148771,14); (1345975330,14);
(1345801905,14); (1345628498,14); (1345455108,14); (1345281736,14); (1345108380,14); (1344935042,14); (1344761721,14); (1344588417,14);
(1344415131,14); (1344241861,14); (1344068609,14); (1343895374,14); (1343722156,14); (1343548955,14); (1343375772,14); (1343202606,14);
(1343029457,14); (1342856325,14); (1342683210,14); (1342510112,14); (1342337032,14); (1342163969,14); (1341990922,14); (1341817894,14);
(1341644882,14); (1341471887,14); (1341298910,14); (1341125949,14); (1340953006,14); (1340780080,14); (1340607171,14); (1340434280,14);
(1340261405,14); (1340088547,14); (1339915707,14); (1339742884,14); (1339570078,14); (1339397289,14); (1339224517,14); (1339051762,14);
(1338879025,14); (1338706304,14); (1338533601,14); (1338360915,14); (1338188246,14); (1338015594,14); (1337842959,14); (1337670341,14);
(1337497740,14); (1337325156,14); (1337152590,14); (1336980040,14); (1336807508,14); (1336634993,14); (1336462495,14); (1336290013,14);
(1336117549,14); (1335945102,14); (1335772673,14); (1335600260,14); (1335427864,14); (1335255485,14); (1335083124,14); (1334910779,14);
(1334738452,14); (1334566141,14); (1334393848,14); (1334221571,14); (1334049312,14); (1333877070,14); (1333704845,14); (1333532636,14);
(1333360445,14); (1333188271,14); (1333016114,14); (1332843974,14); (1332671851,14); (1332499745,14); (1332327656,14); (1332155584,14);
(1331983529,14); (1331811491,14); (1331639470,14); (1331467466,14); (1331295479,14); (1331123509,14); (1330951557,14); (1330779621,14);
(1330607702,14); (1330435800,14); (1330263915,14); (1330092047,14); (1329920196,14); (1329748362,14); (1329576545,14); (1329404745,14);
(1329232962,14); (1329061196,14); (1328889447,14); (1328717715,14); (1328546000,14); (1328374302,14); (1328202620,14); (1328030956,14);
(1327859309,14); (1327687678,14); (1327516065,14); (1327344469,14); (1327172889,14); (1327001326,14); (1326829781,14); (1326658252,14);
(1326486740,14); (1326315246,14); (1326143768,14); (1325972307,14); (1325800863,14); (1325629436,14); (1325458025,14); (1325286632,14);
(1325115256,14); (1324943896,14); (1324772554,14); (1324601228,14); (1324429920,14); (1324258628,14); (1324087353,14); (1323916095,14);
(1323744854,14); (1323573630,14); (1323402422,14); (1323231232,14); (1323060058,14); (1322888902,14); (1322717762,14); (1322546639,14);
(1322375533,14); (1322204444,14); (1322033371,14); (1321862316,14); (1321691277,14); (1321520256,14); (1321349251,14); (1321178263,14);
(1321007292,14); (1320836338,14); (1320665400,14); (1320494480,14); (1320323576,14); (1320152689,14); (1319981819,14); (1319810966,14);
(1319640129,14); (1319469310,14); (1319298507,14); (1319127721,14); (1318956952,14); (1318786200,14); (1318615465,14); (1318444746,14);
(1318274044,14); (1318103360,14); (1317932691,14); (1317762040,14); (1317591406,14); (1317420788,14); (1317250187,14); (1317079603,14);
(1316909036,14); (1316738485,14); (1316567951,14); (1316397434,14); (1316226934,14); (1316056451,14); (1315885984,14); (1315715534,14);
(1315545101,14); (1315374685,14); (1315204286,14); (1315033903,14); (1314863537,14); (1314693188,14); (1314522855,14); (1314352540,14);
(1314182241,14); (1314011959,14); (1313841693,14); (1313671445,14); (1313501213,14); (1313330998,14); (1313160799,14); (1312990617,14);
(1312820453,14); (1312650304,14); (1312480173,14); (1312310058,14); (1312139960,14); (1311969879,14); (1311799814,14); (1311629766,14);
(1311459735,14); (1311289721,14); (1311119723,14); (1310949742,14); (1310779778,14); (1310609830,14); (1310439899,14); (1310269985,14);
(1310100088,14); (1309930207,14); (1309760343,14); (1309590495,14); (1309420665,14); (1309250851,14); (1309081053,14); (1308911273,14);
(1308741509,14); (1308571761,14); (1308402031,14); (1308232317,14); (1308062619,14); (1307892939,14); (1307723275,14); (1307553627,14);
(1307383997,14); (1307214383,14); (1307044785,14); (1306875205,14); (1306705641,14); (1306536093,14); (1306366562,14); (1306197048,14);
(1306027551,14); (1305858070,14); (1305688606,14); (1305519158,14); (1305349727,14); (1305180313,14); (1305010915,14); (1304841534,14);
(1304672170,14); (1304502822,14); (1304333491,14); (1304164176,14); (1303994878,14); (1303825597,14); (1303656332,14); (1303487084,14);
(1303317852,14); (1303148637,14); (1302979439,14); (1302810257,14); (1302641092,14); (1302471943,14); (1302302811,14); (1302133695,14);
(1301964597,14); (1301795514,14); (1301626448,14); (1301457399,14); (1301288367,14); (1301119351,14); (1300950351,14); (1300781368,14);
(1300612402,14); (1300443452,14); (1300274519,14); (1300105602,14); (1299936702,14); (1299767819,14); (1299598952,14); (1299430101,14);
(1299261267,14); (1299092450,14); (1298923649,14); (1298754865,14); (1298586097,14); (1298417345,14); (1298248611,14); (1298079893,14);
(1297911191,14); (1297742506,14); (1297573837,14); (1297405185,14); (1297236549,14); (1297067930,14); (1296899327,14); (1296730741,14);
(1296562172,14); (1296393619,14); (1296225082,14); (1296056562,14); (1295888058,14); (1295719571,14); (1295551100,14); (1295382646,14);
(1295214209,14); (1295045787,14); (1294877383,14); (1294708994,14); (1294540623,14); (1294372267,14); (1294203928,14); (1294035606,14);
(1293867300,14); (1293699011,14); (1293530738,14); (1293362481,14); (1293194241,14); (1293026017,14); (1292857810,14); (1292689620,14);
(1292521445,14); (1292353287,14); (1292185146,14); (1292017021,14); (1291848913,14); (1291680820,14); (1291512745,14); (1291344685,14);
(1291176643,14); (1291008616,14); (1290840606,14); (1290672613,14); (1290504636,14); (1290336675,14); (1290168731,14); (1290000803,14);
(1289832891,14); (1289664996,14); (1289497117,14); (1289329255,14); (1289161409,14); (1288993580,14); (1288825766,14); (1288657970,14)].

(** entries 20480..22527 *)
Definition RECIPROCAL_10 : list (Z * Z) := [
(1288490189,14); (1288322425,14); (1288154678,14); (1287986947,14); (1287819232,14); (1287651533,14); (1287483851,14); (1287316185,14);
(1287148536,14); (1286980903,14); (1286813287,14); (1286645686,14); (1286478102,14); (1286310535,14); (1286142984,14); (1285975449,14);
(1285807930,14); (1285640428,14); (1285472942,14); (1285305473,14); (1285138020,14); (1284970583,14); (1284803162,14); (1284635758,14);
(1284468371,14); (1284300999,14); (1284133644,14); (1283966305,14); (1283798983,14); (1283631676,14); (1283464387,14); (1283297113,14);
(1283129856,14); (1282962615,14); (1282795390,14); (1282628182,14); (1282460990,14); (1282293814,14); (1282126655,14); (1281959511,14);
(1281792385,14); (1281625274,14); (1281458180,14); (1281291102,14); (1281124040,14); (1280956995,14); (1280789965,14); (1280622952,14);
(1280455956,14); (1280288976,14); (1280122011,14); (1279955064,14); (1279788132,14); (1279621217,14); (1279454318,14); (1279287435,14);
(1279120568,14); (1278953718,14); (1278786884,14); (1278620066,14); (1278453265,14); (1278286479,14); (1278119710,14); (1277952958,14);
(1277786221,14); (1277619501,14); (1277452796,14); (1277286109,14); (1277119437,14); (1276952781,14); (1276786142,14); (1276619519,14);
(1276452912,14); (1276286322,14); (1276119747,14); (1275953189,14); (1275786647,14); (1275620121,14); (1275453612,14); (1275287118,14);
(1275120641,14); (1274954180,14); (1274787736,14); (1274621307,14); (1274454894,14); (1274288498,14); (1274122118,14); (1273955754,14);
(1273789407,14); (1273623075,14); (1273456760,14); (1273290461,14); (1273124178,14); (1272957911,14); (1272791660,14); (1272625426,14);
(1272459207,14); (1272293005,14); (1272126819,14); (1271960649,14); (1271794495,14); (1271628358,14); (1271462236,14); (1271296131,14);
(1271130042,14); (1270963969,14); (1270797912,14); (1270631871,14); (1270465846,14); (1270299838,14); (1270133845,14); (1269967869,14);
(1269801909,14); (1269635965,14); (1269470037,14); (1269304125,14); (1269138229,14); (1268972350,14); (1268806486,14); (1268640639,14);
(1268474808,14); (1268308993,14); (1268143193,14); (1267977410,14); (1267811644,14); (1267645893,14); (1267480158,14); (1267314439,14);
(1267148737,14); (1266983050,14); (1266817380,14); (1266651726,14); (1266486087,14); (1266320465,14); (1266154859,14); (1265989269,14);
(1265823695,14); (1265658137,14); (1265492595,14); (1265327070,14); (1265161560,14); (1264996066,14); (1264830589,14); (1264665127,14);
(1264499682,14); (1264334252,14); (1264168839,14); (1264003441,14); (1263838060,14); (1263672694,14); (1263507345,14); (1263342012,14);
(1263176695,14); (1263011393,14); (1262846108,14); (1262680839,14); (1262515586,14); (1262350349,14); (1262185127,14); (1262019922,14);
(1261854733,14); (1261689560,14); (1261524403,14); (1261359262,14); (1261194137,14); (1261029028,14); (1260863934,14); (1260698857,14);
(1260533796,14); (1260368751,14); (1260203722,14); (1260038709,14); (1259873711,14); (1259708730,14); (1259543765,14); (1259378816,14);
(1259213882,14); (1259048965,14); (1258884064,14); (1258719178,14); (1258554309,14); (1258389455,14); (1258224618,14); (1258059796,14);
(1257894991,14); (1257730201,14); (1257565427,14); (1257400669,14); (1257235928,14); (1257071202,14); (1256906492,14); (1256741798,14);
(1256577120,14); (1256412457,14); (1256247811,14); (1256083181,14); (1255918567,14); (1255753968,14); (1255589386,14); (1255424819,14);
(1255260268,14); (1255095733,14); (1254931215,14); (1254766712,14); (1254602225,14); (1254437753,14); (1254273298,14); (1254108859,14);
(1253944435,14); (1253780028,14); (1253615636,14); (1253451260,14); (1253286900,14); (1253122556,14); (1252958228,14); (1252793916,14);
(1252629620,14); (1252465339,14); (1252301075,14); (1252136826,14); (1251972593,14); (1251808376,14); (1251644175,14); (1251479990,14);
(1251315820,14); (1251151667,14); (1250987529,14); (1250823407,14); (1250659301,14); (1250495211,14); (1250331137,14); (1250167078,14);
(1250003035,14); (1249839009,14); (1249674998,14); (1249511003,14); (1249347023,14); (1249183060,14); (1249019112,14); (1248855181,14);
(1248691265,14); (1248527364,14); (1248363480,14); (1248199612,14); (1248035759,14); (1247871922,14); (1247708101,14); (1247544296,14);
(1247380506,14); (1247216733,14); (1247052975,14); (1246889233,14); (1246725506,14); (1246561796,14); (1246398101,14); (1246234422,14);
(1246070759,14); (1245907112,14); (1245743480,14); (1245579865,14); (1245416265,14); (1245252680,14); (1245089112,14); (1244925559,14);
(1244762022,14); (1244598501,14); (1244434996,14); (1244271506,14); (1244108033,14); (1243944574,14); (1243781132,14); (1243617706,14);
(1243454295,14); (1243290900,14); (1243127520,14); (1242964157,14); (1242800809,14); (1242637477,14); (1242474160,14); (1242310860,14);
(1242147575,14); (1241984306,14); (1241821052,14); (1241657815,14); (1241494593,14); (1241331386,14); (1241168196,14); (1241005021,14);
(1240841862,14); (1240678718,14); (1240515591,14); (1240352479,14); (1240189382,14); (1240026302,14); (1239863237,14); (1239700188,14);
(1239537154,14); (1239374136,14); (1239211134,14); (1239048148,14); (1238885177,14); (1238722222,14); (1238559283,14); (1238396359,14);
(1238233451,14); (1238070559,14); (1237907682,14); (1237744821,14); (1237581976,14); (1237419146,14); (1237256332,14); (1237093534,14);
(1236930751,14); (1236767984,14); (1236605233,14); (1236442497,14); (1236279777,14); (1236117073,14); (1235954384,14); (1235791711,14);
(1235629053,14); (1235466412,14); (1235303785,14); (1235141175,14); (1234978580,14); (1234816001,14); (1234653437,14); (1234490889,14);
(1234328356,14); (1234165840,14); (1234003338,14); (1233840853,14); (1233678383,14); (1233515929,14); (1233353490,14); (1233191067,14);
(1233028659,14); (1232866267,14); (1232703891,14); (1232541530,14); (1232379185,14); (1232216856,14); (1232054542,14); (1231892243,14);
(1231729961,14); (1231567694,14); (1231405442,14); (1231243206,14); (1231080986,14); (1230918781,14); (1230756591,14); (1230594418,14);
(1230432260,14); (1230270117,14); (1230107990,14); (1229945879,14); (1229783783,14); (1229621702,14); (1229459638,14); (1229297589,14);
(1229135555,14); (1228973537,14); (1228811534,14); (1228649547,14); (1228487576,14); (1228325620,14); (1228163679,14); (1228001755,14);
(1227839845,14); (1227677952,14); (1227516073,14); (1227354211,14); (1227192363,14); (1227030532,14); (1226868715,14); (1226706915,14);
(1226545130,14); (1226383360,14); (1226221606,14); (1226059867,14); (1225898144,14); (1225736437,14); (1225574745,14); (1225413068,14);
(1225251407,14); (1225089761,14); (1224928131,14); (1224766517,14); (1224604918,14); (1224443334,14); (1224281766,14); (1224120213,14);
(1223958676,14); (1223797154,14); (1223635648,14); (1223474157,14); (1223312682,14); (1223151222,14); (1222989778,14); (1222828349,14);
(1222666936,14); (1222505538,14); (1222344155,14); (1222182788,14); (1222021437,14); (1221860101,14); (1221698780,14); (1221537475,14);
(1221376185,14); (1221214910,14); (1221053652,14); (1220892408,14); (1220731180,14); (1220569967,14); (1220408770,14); (1220247589,14);
(1220086422,14); (1219925271,14); (1219764136,14); (1219603016,14); (1219441911,14); (1219280822,14); (1219119748,14); (1218958690,14);
(1218797647,14); (1218636619,14); (1218475607,14); (1218314610,14); (1218153629,14); (1217992663,14); (1217831713,14); (1217670777,14);
(1217509858,14); (1217348953,14); (1217188064,14); (1217027191,14); (1216866332,14); (1216705489,14); (1216544662,14); (1216383850,14);
(1216223053,14); (1216062272,14); (1215901506,14); (1215740755,14); (1215580020,14); (1215419300,14); (1215258596,14); (1215097906,14);
(1214937233,14); (1214776574,14); (1214615931,14); (1214455303,14); (1214294691,14); (1214134094,14); (1213973512,14); (1213812946,14);
(1213652395,14); (1213491859,14); (1213331339,14); (1213170834,14); (1213010344,14); (1212849869,14); (1212689410,14); (1212528967,14);
(1212368538,14); (1212208125,14); (1212047727,14); (1211887345,14); (1211726978,14); (1211566626,14); (1211406289,14); (1211245968,14);
(1211085662,14); (1210925372,14); (1210765096,14); (1210604836,14); (1210444592,14); (1210284362,14); (1210124148,14); (1209963949,14);
(1209803766,14); (1209643597,14); (1209483444,14); (1209323307,14); (1209163184,14); (1209003077,14); (1208842985,14); (1208682908,14);
(1208522847,14); (1208362801,14); (1208202770,14); (1208042755,14); (1207882754,14); (1207722769,14); (1207562799,14); (1207402845,14);
(1207242906,14); (1207082982,14); (1206923073,14); (1206763179,14); (1206603301,14); (1206443438,14); (1206283590,14); (1206123757,14);
(1205963940,14); (1205804138,14); (1205644351,14); (1205484579,14); (1205324823,14); (1205165082,14); (1205005356,14); (1204845645,14);
(1204685949,14); (1204526269,14); (1204366604,14); (1204206954,14); (1204047319,14); (1203887700,14); (1203728095,14); (1203568506,14);
(1203408932,14); (1203249374,14); (1203089830,14); (1202930302,14); (1202770789,14); (1202611291,14); (1202451808,14); (1202292340,14);
(1202132888,14); (1201973451,14); (1201814029,14); (1201654622,14); (1201495230,14); (1201335854,14); (1201176492,14); (1201017146,14);
(1200857815,14); (1200698499,14); (1200539199,14); (1200379913,14); (1200220643,14); (1200061387,14); (1199902147,14); (1199742922,14);
(1199583713,14); (1199424518,14); (1199265338,14); (1199106174,14); (1198947025,14); (1198787891,14); (1198628772,14); (1198469668,14);
(1198310579,14); (1198151506,14); (1197992447,14); (1197833404,14); (1197674376,14); (1197515363,14); (1197356365,14); (1197197382,14);
(1197038414,14); (1196879462,14); (1196720524,14); (1196561602,14); (1196402694,14); (1196243802,14); (1196084925,14); (1195926063,14);
(1195767216,14); (1195608384,14); (1195449568,14); (1195290766,14); (1195131979,14); (1194973208,14); (1194814452,14); (1194655710,14);
(1194496984,14); (1194338273,14); (1194179577,14); (1194020896,14); (1193862230,14); (1193703579,14); (1193544943,14); (1193386322,14);
(1193227717,14); (1193069126,14); (1192910551,14); (1192751990,14); (1192593445,14); (1192434914,14); (1192276399,14); (1192117899,14);
(1191959413,14); (1191800943,14); (1191642488,14); (1191484048,14); (1191325623,14); (1191167213,14); (1191008818,14); (1190850437,14);
(1190692073,14); (1190533723,14); (1190375388,14); (1190217068,14); (1190058763,14); (1189900473,14); (1189742198,14); (1189583938,14);
(1189425693,14); (1189267463,14); (1189109249,14); (1188951049,14); (1188792864,14); (1188634694,14); (1188476539,14); (1188318399,14);
(1188160274,14); (1188002165,14); (1187844070,14); (1187685990,14); (1187527925,14); (1187369875,14); (1187211840,14); (1187053820,14);
(1186895815,14); (1186737825,14); (1186579850,14); (1186421890,14); (1186263945,14); (1186106015,14); (1185948099,14); (1185790199,14);
(1185632314,14); (1185474444,14); (1185316588,14); (1185158748,14); (1185000922,14); (1184843112,14); (1184685316,14); (1184527536,14);
(1184369770,14); (1184212019,14); (1184054283,14); (1183896563,14); (1183738857,14); (1183581166,14); (1183423490,14); (1183265828,14);
(1183108182,14); (1182950551,14); (1182792935,14); (1182635333,14); (1182477746,14); (1182320175,14); (1182162618,14); (1182005076,14);
(1181847549,14); (1181690037,14); (1181532540,14); (1181375058,14); (1181217591,14); (1181060138,14); (1180902701,14); (1180745278,14);
(1180587871,14); (1180430478,14); (1180273100,14); (1180115737,14); (1179958389,14); (1179801055,14); (1179643737,14); (1179486433,14);
(1179329145,14); (1179171871,14); (1179014612,14); (1178857368,14); (1178700139,14); (1178542924,14); (1178385725,14); (1178228540,14);
(1178071370,14); (1177914215,14); (1177757075,14); (1177599950,14); (1177442840,14); (1177285744,14); (1177128664,14); (1176971598,14);
(1176814547,14); (1176657511,14); (1176500489,14); (1176343483,14); (1176186491,14); (1176029514,14); (1175872552,14); (1175715605,14);
(1175558673,14); (1175401755,14); (1175244853,14); (1175087965,14); (1174931092,14); (1174774234,14); (1174617390,14); (1174460561,14);
(1174303748,14); (1174146949,14); (1173990164,14); (1173833395,14); (1173676640,14); (1173519900,14); (1173363175,14); (1173206465,14);
(1173049770,14); (1172893089,14); (1172736423,14); (1172579772,14); (1172423136,14); (1172266514,14); (1172109907,14); (1171953315,14);
(1171796738,14); (1171640176,14); (1171483628,14); (1171327095,14); (1171170577,14); (1171014074,14); (1170857585,14); (1170701111,14);
(1170544652,14); (1170388208,14); (1170231778,14); (1170075363,14); (1169918963,14); (1169762578,14); (1169606207,14); (1169449851,14);
(1169293510,14); (1169137184,14); (1168980872,14); (1168824575,14); (1168668293,14); (1168512026,14); (1168355773,14); (1168199535,14);
(1168043311,14); (1167887103,14); (1167730909,14); (1167574730,14); (1167418566,14); (1167262416,14); (1167106281,14); (1166950161,14);
(1166794055,14); (1166637964,14); (1166481888,14); (1166325826,14); (1166169780,14); (1166013748,14); (1165857730,14); (1165701727,14);
(1165545739,14); (1165389766,14); (1165233807,14); (1165077863,14); (1164921934,14); (1164766020,14); (1164610120,14); (1164454234,14);
(1164298364,14); (1164142508,14); (1163986667,14); (1163830840,14); (1163675028,14); (1163519231,14); (1163363448,14); (1163207681,14);
(1163051927,14); (1162896189,14); (1162740465,14); (1162584755,14); (1162429061,14); (1162273381,14); (1162117715,14); (1161962065,14);
(1161806429,14); (1161650807,14); (1161495200,14); (1161339608,14); (1161184031,14); (1161028468,14); (1160872919,14); (1160717386,14);
(1160561867,14); (1160406362,14); (1160250872,14); (1160095397,14); (1159939937,14); (1159784491,14); (1159629059,14); (1159473643,14);
(1159318241,14); (1159162853,14); (1159007480,14); (1158852122,14); (1158696778,14); (1158541449,14); (1158386134,14); (1158230834,14);
(1158075549,14); (1157920278,14); (1157765022,14); (1157609781,14); (1157454554,14); (1157299341,14); (1157144143,14); (1156988960,14);
(1156833791,14); (1156678637,14); (1156523498,14); (1156368373,14); (1156213262,14); (1156058166,14); (1155903085,14); (1155748018,14);
(1155592966,14); (1155437929,14); (1155282905,14); (1155127897,14); (1154972903,14); (1154817924,14); (1154662959,14); (1154508008,14);
(1154353073,14); (1154198151,14); (1154043245,14); (1153888352,14); (1153733475,14); (1153578612,14); (1153423763,14); (1153268929,14);
(1153114109,14); (1152959304,14); (1152804514,14); (1152649738,14); (1152494976,14); (1152340230,14); (1152185497,14); (1152030779,14);
(1151876076,14); (1151721387,14); (1151566712,14); (1151412053,14); (1151257407,14); (1151102776,14); (1150948160,14); (1150793558,14);
(1150638971,14); (1150484398,14); (1150329839,14); (1150175295,14); (1150020766,14); (1149866251,14); (1149711750,14); (1149557264,14);
(1149402793,14); (1149248336,14); (1149093893,14); (1148939465,14); (1148785051,14); (1148630652,14); (1148476267,14); (1148321897,14);
(1148167541,14); (1148013200,14); (1147858873,14); (1147704560,14); (1147550262,14); (1147395979,14); (1147241710,14); (1147087455,14);
(1146933215,14); (1146778989,14); (1146624778,14); (1146470581,14); (1146316398,14); (1146162230,14); (1146008077,14); (1145853937,14);
(1145699813,14); (1145545702,14); (1145391606,14); (1145237525,14); (1145083458,14); (1144929405,14); (1144775367,14); (1144621343,14);
(1144467334,14); (1144313339,14); (1144159358,14); (1144005392,14); (1143851440,14); (1143697503,14); (1143543580,14); (1143389671,14);
(1143235777,14); (1143081897,14); (1142928032,14); (1142774181,14); (1142620344,14); (1142466522,14); (1142312714,14); (1142158921,14);
(1142005142,14); (1141851377,14); (1141697627,14); (1141543891,14); (1141390169,14); (1141236462,14); (1141082769,14); (1140929090,14);
(1140775426,14); (1140621776,14); (1140468141,14); (1140314520,14); (1140160913,14); (1140007321,14); (1139853743,14); (1139700179,14);
(1139546630,14); (1139393095,14); (1139239574,14); (1139086068,14); (1138932576,14); (1138779098,14); (1138625635,14); (1138472186,14);
(1138318752,14); (1138165331,14); (1138011925,14); (1137858534,14); (1137705156,14); (1137551793,14); (1137398445,14); (1137245110,14);
(1137091790,14); (1136938484,14); (1136785193,14); (1136631916,14); (1136478653,14); (1136325405,14); (1136172170,14); (1136018950,14);
(1135865745,14); (1135712554,14); (1135559377,14); (1135406214,14); (1135253065,14); (1135099931,14); (1134946811,14); (1134793706,14);
(1134640615,14); (1134487538,14); (1134334475,14); (1134181426,14); (1134028392,14); (1133875372,14); (1133722367,14); (1133569375,14);
(1133416398,14); (1133263435,14); (1133110487,14); (1132957552,14); (1132804632,14); (1132651726,14); (1132498835,14); (1132345958,14);
(1132193095,14); (1132040246,14); (1131887411,14); (1131734591,14); (1131581785,14); (1131428993,14); (1131276215,14); (1131123452,14);
(1130970703,14); (1130817968,14); (1130665247,14); (1130512541,14); (1130359849,14); (1130207171,14); (1130054507,14); (1129901857,14);
(1129749222,14); (1129596601,14); (1129443994,14); (1129291402,14); (1129138823,14); (1128986259,14); (1128833709,14); (1128681173,14);
(1128528651,14); (1128376144,14); (1128223651,14); (1128071172,14); (1127918707,14); (1127766256,14); (1127613820,14); (1127461397,14);
(1127308989,14); (1127156595,14); (1127004216,14); (1126851850,14); (1126699499,14); (1126547161,14); (1126394838,14); (1126242530,14);
(1126090235,14); (1125937954,14); (1125785688,14); (1125633436,14); (1125481198,14); (1125328974,14); (1125176764,14); (1125024569,14);
(1124872388,14); (1124720220,14); (1124568067,14); (1124415928,14); (1124263804,14); (1124111693,14); (1123959596,14); (1123807514,14);
(1123655446,14); (1123503392,14); (1123351352,14); (1123199326,14); (1123047314,14); (1122895317,14); (1122743334,14); (1122591364,14);
(1122439409,14); (1122287468,14); (1122135541,14); (1121983628,14); (1121831730,14); (1121679845,14); (1121527975,14); (1121376118,14);
(1121224276,14); (1121072448,14); (1120920634,14); (1120768834,14); (1120617048,14); (1120465276,14); (1120313519,14); (1120161775,14);
(1120010046,14); (1119858330,14); (1119706629,14); (1119554942,14); (1119403269,14); (1119251610,14); (1119099965,14); (1118948334,14);
(1118796717,14); (1118645115,14); (1118493526,14); (1118341951,14); (1118190391,14); (1118038844,14); (1117887312,14); (1117735794,14);
(1117584289,14); (1117432799,14); (1117281323,14); (1117129861,14); (1116978413,14); (1116826979,14); (1116675559,14); (1116524153,14);
(1116372761,14); (1116221384,14); (1116070020,14); (1115918670,14); (1115767335,14); (1115616013,14); (1115464705,14); (1115313412,14);
(1115162132,14); (1115010867,14); (1114859615,14); (1114708378,14); (1114557154,14); (1114405945,14); (1114254750,14); (1114103568,14);
(1113952401,14); (1113801247,14); (1113650108,14); (1113498983,14); (1113347871,14); (1113196774,14); (1113045691,14); (1112894621,14);
(1112743566,14); (1112592525,14); (1112441497,14); (1112290484,14); (1112139485,14); (1111988499,14); (1111837528,14); (1111686571,14);
(1111535627,14); (1111384698,14); (1111233782,14); (1111082881,14); (1110931993,14); (1110781120,14); (1110630260,14); (1110479415,14);
(1110328583,14); (1110177765,14); (1110026962,14); (1109876172,14); (1109725396,14); (1109574634,14); (1109423886,14); (1109273153,14);
(1109122433,14); (1108971727,14); (1108821034,14); (1108670356,14); (1108519692,14); (1108369042,14); (1108218406,14); (1108067783,14);
(1107917175,14); (1107766580,14); (1107616000,14); (1107465433,14); (1107314881,14); (1107164342,14); (1107013817,14); (1106863306,14);
(1106712809,14); (1106562326,14); (1106411857,14); (1106261402,14); (1106110960,14); (1105960533,14); (1105810119,14); (1105659720,14);
(1105509334,14); (1105358962,14); (1105208604,14); (1105058260,14); (1104907930,14); (1104757614,14); (1104607312,14); (1104457023,14);
(1104306749,14); (1104156488,14); (1104006241,14); (1103856009,14); (1103705790,14); (1103555585,14); (1103405393,14); (1103255216,14);
(1103105053,14); (1102954903,14); (1102804767,14); (1102654645,14); (1102504537,14); (1102354443,14); (1102204363,14); (1102054297,14);
(1101904244,14); (1101754205,14); (1101604180,14); (1101454169,14); (1101304172,14); (1101154189,14); (1101004220,14); (1100854264,14);
(1100704322,14); (1100554394,14); (1100404480,14); (1100254580,14); (1100104694,14); (1099954821,14); (1099804962,14); (1099655118,14);
(1099505287,14); (1099355469,14); (1099205666,14); (1099055876,14); (1098906101,14); (1098756339,14); (1098606590,14); (1098456856,14);
(1098307136,14); (1098157429,14); (1098007736,14); (1097858057,14); (1097708392,14); (1097558740,14); (1097409103,14); (1097259479,14);
(1097109869,14); (1096960272,14); (1096810690,14); (1096661121,14); (1096511566,14); (1096362025,14); (1096212498,14); (1096062984,14);
(1095913485,14); (1095763999,14); (1095614526,14); (1095465068,14); (1095315623,14); (1095166192,14); (1095016775,14); (1094867372,14);
(1094717983,14); (1094568607,14); (1094419245,14); (1094269896,14); (1094120562,14); (1093971241,14); (1093821934,14); (1093672641,14);
(1093523361,14); (1093374096,14); (1093224844,14); (1093075605,14); (1092926381,14); (1092777170,14); (1092627973,14); (1092478790,14);
(1092329620,14); (1092180465,14); (1092031322,14); (1091882194,14); (1091733080,14); (1091583979,14); (1091434891,14); (1091285818,14);
(1091136758,14); (1090987712,14); (1090838680,14); (1090689661,14); (1090540657,14); (1090391666,14); (1090242688,14); (1090093724,14);
(1089944774,14); (1089795838,14); (1089646915,14); (1089498007,14); (1089349111,14); (1089200230,14); (1089051362,14); (1088902508,14);
(1088753668,14); (1088604841,14); (1088456028,14); (1088307228,14); (1088158443,14); (1088009671,14); (1087860912,14); (1087712168,14);
(1087563437,14); (1087414720,14); (1087266016,14); (1087117326,14); (1086968650,14); (1086819987,14); (1086671338,14); (1086522703,14);
(1086374081,14); (1086225473,14); (1086076879,14); (1085928298,14); (1085779731,14); (1085631178,14); (1085482638,14); (1085334112,14);
(1085185600,14); (1085037101,14); (1084888616,14); (1084740145,14); (1084591687,14); (1084443243,14); (1084294812,14); (1084146395,14);
(1083997992,14); (1083849602,14); (1083701226,14); (1083552864,14); (1083404515,14); (1083256180,14); (1083107858,14); (1082959550,14);
(1082811256,14); (1082662975,14); (1082514708,14); (1082366455,14); (1082218215,14); (1082069989,14); (1081921776,14); (1081773577,14);
(1081625391,14); (1081477220,14); (1081329061,14); (1081180917,14); (1081032786,14); (1080884668,14); (1080736564,14); (1080588474,14);
(1080440397,14); (1080292334,14); (1080144285,14); (1079996249,14); (1079848226,14); (1079700218,14); (1079552222,14); (1079404241,14);
(1079256273,14); (1079108318,14); (1078960377,14); (1078812450,14); (1078664536,14); (1078516636,14); (1078368749,14); (1078220876,14);
(1078073016,14); (1077925170,14); (1077777338,14); (1077629519,14); (1077481714,14); (1077333922,14); (1077186143,14); (1077038379,14);
(1076890628,14); (1076742890,14); (1076595166,14); (1076447455,14); (1076299758,14); (1076152075,14); (1076004405,14); (1075856748,14);
(1075709105,14); (1075561476,14); (1075413860,14); (1075266258,14); (1075118669,14); (1074971093,14); (1074823532,14); (1074675983,14);
(1074528449,14); (1074380927,14); (1074233420,14); (1074085925,14); (1073938445,14); (1073790977,14); (1073643523,14); (1073496083,14);
(1073348656,14); (1073201243,14); (1073053843,14); (1072906457,14); (1072759084,14); (1072611725,14); (1072464379,14); (1072317047,14);
(1072169728,14); (1072022423,14); (1071875131,14); (1071727852,14); (1071580588,14); (1071433336,14); (1071286098,14); (1071138874,14);
(1070991662,14); (1070844465,14); (1070697281,14); (1070550110,14); (1070402953,14); (1070255809,14); (1070108679,14); (1069961562,14);
(1069814459,14); (1069667369,14); (1069520292,14); (1069373229,14); (1069226180,14); (1069079143,14); (1068932121,14); (1068785111,14);
(1068638116,14); (1068491133,14); (1068344164,14); (1068197209,14); (1068050267,14); (1067903338,14); (1067756423,14); (1067609521,14);
(1067462633,14); (1067315758,14); (1067168896,14); (1067022048,14); (1066875213,14); (1066728392,14); (1066581584,14); (1066434789,14);
(1066288008,14); (1066141241,14); (1065994486,14); (1065847746,14); (1065701018,14); (1065554304,14); (1065407603,14); (1065260916,14);
(1065114242,14); (1064967582,14); (1064820935,14); (1064674301,14); (1064527681,14); (1064381074,14); (1064234480,14); (1064087900,14);
(1063941333,14); (1063794780,14); (1063648240,14); (1063501713,14); (1063355200,14); (1063208700,14); (1063062213,14); (1062915740,14);
(1062769280,14); (1062622834,14); (1062476401,14); (1062329981,14); (1062183575,14); (1062037182,14); (1061890802,14); (1061744436,14);
(1061598083,14); (1061451743,14); (1061305417,14); (1061159104,14); (1061012804,14); (1060866518,14); (1060720245,14); (1060573985,14);
(1060427739,14); (1060281506,14); (1060135287,14); (1059989080,14); (1059842887,14); (1059696708,14); (1059550542,14); (1059404389,14);
(1059258249,14); (1059112123,14); (1058966010,14); (1058819910,14); (1058673824,14); (1058527751,14); (1058381691,14); (1058235644,14);
(1058089611,14); (1057943591,14); (1057797585,14); (1057651592,14); (1057505612,14); (1057359645,14); (1057213692,14); (1057067752,14);
(1056921825,14); (1056775912,14); (1056630011,14); (1056484125,14); (1056338251,14); (1056192391,14); (1056046544,14); (1055900710,14);
(1055754889,14); (1055609082,14); (1055463288,14); (1055317508,14); (1055171740,14); (1055025986,14); (1054880245,14); (1054734518,14);
(1054588803,14); (1054443102,14); (1054297414,14); (1054151740,14); (1054006079,14); (1053860430,14); (1053714796,14); (1053569174,14);
(1053423566,14); (1053277971,14); (1053132389,14); (1052986820,14); (1052841265,14); (1052695723,14); (1052550194,14); (1052404679,14);
(1052259176,14); (1052113687,14); (1051968211,14); (1051822748,14); (1051677299,14); (1051531863,14); (1051386440,14); (1051241030,14);
(1051095633,14); (1050950250,14); (1050804880,14); (1050659523,14); (1050514179,14); (1050368849,14); (1050223531,14); (1050078227,14);
(1049932936,14); (1049787659,14); (1049642394,14); (1049497143,14); (1049351905,14); (1049206680,14); (1049061468,14); (1048916270,14);
(1048771084,14); (1048625912,14); (1048480753,14); (1048335608,14); (1048190475,14); (1048045356,14); (1047900249,14); (1047755156,14);
(1047610077,14); (1047465010,14); (1047319956,14); (1047174916,14); (1047029889,14); (1046884875,14); (1046739874,14); (1046594886,14);
(1046449912,14); (1046304950,14); (1046160002,14); (1046015067,14); (1045870145,14); (1045725237,14); (1045580341,14); (1045435459,14);
(1045290589,14); (1045145733,14); (1045000890,14); (1044856060,14); (1044711244,14); (1044566440,14); (1044421650,14); (1044276872,14);
(1044132108,14); (1043987357,14); (1043842619,14); (1043697894,14); (1043553183,14); (1043408484,14); (1043263799,14); (1043119126,14);
(1042974467,14); (1042829821,14); (1042685188,14); (1042540568,14); (1042395962,14); (1042251368,14); (1042106788,14); (1041962220,14);
(1041817666,14); (1041673125,14); (1041528597,14); (1041384082,14); (1041239580,14); (1041095091,14); (1040950615,14); (1040806153,14);
(1040661703,14); (1040517267,14); (1040372843,14); (1040228433,14); (1040084036,14); (1039939652,14); (1039795281,14); (1039650923,14);
(1039506578,14); (1039362246,14); (1039217927,14); (1039073622,14); (1038929329,14); (1038785050,14); (1038640783,14); (1038496530,14);
(1038352290,14); (1038208062,14); (1038063848,14); (1037919647,14); (1037775459,14); (1037631284,14); (1037487122,14); (1037342973,14);
(1037198837,14); (1037054714,14); (1036910604,14); (1036766508,14); (1036622424,14); (1036478353,14); (1036334296,14); (1036190251,14);
(1036046219,14); (1035902201,14); (1035758195,14); (1035614203,14); (1035470223,14); (1035326257,14); (1035182304,14); (1035038363,14);
(1034894436,14); (1034750521,14); (1034606620,14); (1034462732,14); (1034318856,14); (1034174994,14); (1034031145,14); (1033887309,14);
(1033743485,14); (1033599675,14); (1033455878,14); (1033312093,14); (1033168322,14); (1033024564,14); (1032880819,14); (1032737086,14);
(1032593367,14); (1032449661,14); (1032305967,14); (1032162287,14); (1032018620,14); (1031874965,14); (1031731324,14); (1031587696,14);
(1031444080,14); (1031300478,14); (1031156888,14); (1031013312,14); (1030869748,14); (1030726197,14); (1030582660,14); (1030439135,14);
(1030295624,14); (1030152125,14); (1030008639,14); (1029865166,14); (1029721706,14); (1029578259,14); (1029434826,14); (1029291405,14);
(1029147996,14); (1029004601,14); (1028861219,14); (1028717850,14); (1028574494,14); (1028431150,14); (1028287820,14); (1028144503,14);
(1028001198,14); (1027857906,14); (1027714628,14); (1027571362,14); (1027428109,14); (1027284869,14); (1027141642,14); (1026998428,14);
(1026855227,14); (1026712039,14); (1026568864,14); (1026425702,14); (1026282552,14); (1026139416,14); (1025996292,14); (1025853181,14);
(1025710083,14); (1025566999,14); (1025423927,14); (1025280867,14); (1025137821,14); (1024994788,14); (1024851768,14); (1024708760,14);
(1024565765,14); (1024422784,14); (1024279815,14); (1024136859,14); (1023993916,14); (1023850986,14); (1023708068,14); (1023565164,14);
(1023422273,14); (1023279394,14); (1023136528,14); (1022993675,14); (1022850835,14); (1022708008,14); (1022565194,14); (1022422392,14);
(1022279604,14); (1022136828,14); (1021994065,14); (1021851315,14); (1021708578,14); (1021565854,14); (1021423142,14); (1021280444,14);
(1021137758,14); (1020995085,14); (1020852425,14); (1020709778,14); (1020567144,14); (1020424522,14); (1020281914,14); (1020139318,14);
(1019996735,14); (1019854165,14); (1019711608,14); (1019569063,14); (1019426532,14); (1019284013,14); (1019141507,14); (1018999014,14);
(1018856533,14); (1018714066,14); (1018571611,14); (1018429169,14); (1018286740,14); (1018144324,14); (1018001921,14); (1017859530,14);
(1017717152,14); (1017574787,14); (1017432435,14); (1017290096,14); (1017147769,14); (1017005455,14); (1016863154,14); (1016720866,14);
(1016578591,14); (1016436328,14); (1016294078,14); (1016151841,14); (1016009617,14); (1015867406,14); (1015725207,14); (1015583021,14);
(1015440848,14); (1015298688,14); (1015156540,14); (1015014406,14); (1014872284,14); (1014730174,14); (1014588078,14); (1014445994,14);
(1014303923,14); (1014161865,14); (1014019820,14); (1013877787,14); (1013735767,14); (1013593760,14); (1013451766,14); (1013309785,14);
(1013167816,14); (1013025860,14); (1012883916,14); (1012741986,14); (1012600068,14); (1012458163,14); (1012316271,14); (1012174391,14);
(1012032524,14); (1011890670,14); (1011748829,14); (1011607000,14); (1011465184,14); (1011323381,14); (1011181591,14); (1011039813,14);
(1010898048,14); (1010756296,14); (1010614556,14); (1010472830,14); (1010331115,14); (1010189414,14); (1010047725,14); (1009906050,14);
(1009764386,14); (1009622736,14); (1009481098,14); (1009339473,14); (1009197861,14); (1009056261,14); (1008914674,14); (1008773100,14);
(1008631538,14); (1008489989,14); (1008348453,14); (1008206930,14); (1008065419,14); (1007923921,14); (1007782435,14); (1007640963,14);
(1007499503,14); (1007358055,14); (1007216620,14); (1007075198,14); (1006933789,14); (1006792393,14); (1006651009,14); (1006509637,14);
(1006368279,14); (1006226933,14); (1006085600,14); (1005944279,14); (1005802971,14); (1005661676,14); (1005520393,14); (1005379123,14);
(1005237866,14); (1005096621,14); (1004955389,14); (1004814170,14); (1004672963,14); (1004531769,14); (1004390588,14); (1004249419,14);
(1004108263,14); (1003967120,14); (1003825989,14); (1003684871,14); (1003543765,14); (1003402672,14); (1003261592,14); (1003120524,14);
(1002979469,14); (1002838427,14); (1002697397,14); (1002556380,14); (1002415376,14); (1002274384,14); (1002133405,14); (1001992438,14);
(1001851484,14); (1001710543,14); (1001569614,14); (1001428698,14); (1001287794,14); (1001146903,14); (1001006025,14); (1000865159,14);
(1000724306,14); (1000583466,14); (1000442638,14); (1000301822,14); (1000161020,14); (1000020229,14); (999879452,14); (999738687,14);
(999597935,14); (999457195,14); (999316468,14); (999175753,14); (999035051,14); (998894362,14); (998753685,14); (998613021,14);
(998472369,14); (998331730,14); (998191103,14); (998050489,14); (997909888,14); (997769299,14); (997628723,14); (997488159,14);
(997347608,14); (997207070,14); (997066544,14); (996926030,14); (996785529,14); (996645041,14); (996504565,14); (996364102,14);
(996223651,14); (996083213,14); (995942788,14); (995802375,14); (995661974,14); (995521586,14); (995381211,14); (995240848,14);
(995100498,14); (994960160,14); (994819835,14); (994679522,14); (994539222,14); (994398934,14); (994258659,14); (994118396,14);
(993978146,14); (993837909,14); (993697684,14); (993557471,14); (993417271,14); (993277083,14); (993136908,14); (992996746,14);
(992856596,14); (992716459,14); (992576334,14); (992436221,14); (992296121,14); (992156034,14); (992015959,14); (991875896,14);
(991735847,14); (991595809,14); (991455784,14); (991315772,14); (991175772,14); (991035784,14); (990895809,14); (990755847,14);
(990615897,14); (990475959,14); (990336034,14); (990196121,14); (990056221,14); (989916334,14); (989776459,14); (989636596,14);
(989496746,14); (989356908,14); (989217083,14); (989077270,14); (988937469,14); (988797681,14); (988657906,14); (988518143,14);
(988378393,14); (988238654,14); (988098929,14); (987959216,14); (987819515,14); (987679827,14); (987540151,14); (987400487,14);
(987260837,14); (987121198,14); (986981572,14); (986841958,14); (986702357,14); (986562768,14); (986423192,14); (986283628,14);
(986144077,14); (986004538,14); (985865011,14); (985725497,14); (985585995,14); (985446506,14); (985307029,14); (985167565,14);
(985028113,14); (984888673,14); (984749246,14); (984609831,14); (984470428,14); (984331038,14); (984191661,14); (984052296,14);
(983912943,14); (983773602,14); (983634274,14); (983494959,14); (983355656,14); (983216365,14); (983077086,14); (982937820,14);
(982798567,14); (982659326,14); (982520097,14); (982380880,14); (982241676,14); (982102484,14); (981963305,14); (981824138,14);
(981684984,14); (981545841,14); (981406712,14); (981267594,14); (981128489,14); (980989396,14); (980850316,14); (980711248,14);
(980572193,14); (980433149,14); (980294118,14); (980155100,14); (980016094,14); (979877100,14); (979738118,14); (979599149,14);
(979460193,14); (979321248,14); (979182316,14); (979043396,14); (978904489,14); (978765594,14); (978626711,14); (978487841,14);
(978348983,14); (978210137,14); (978071304,14); (977932483,14); (977793674,14); (977654878,14); (977516094,14); (977377322,14);
(977238563,14); (977099816,14); (976961081,14); (976822359,14); (976683649,14); (976544951,14); (976406265,14); (976267592,14)].

(** entries 22528..24575 *)
Definition RECIPROCAL_11 : list (Z * Z) := [
(976128931,14); (975990283,14); (975851647,14); (975713023,14); (975574411,14); (975435812,14); (975297225,14); (975158650,14);
(975020088,14); (974881538,14); (974743000,14); (974604474,14); (974465961,14); (974327460,14); (974188972,14); (974050495,14);
(973912031,14); (973773579,14); (973635140,14); (973496713,14); (973358298,14); (973219895,14); (973081505,14); (972943126,14);
(972804761,14); (972666407,14); (972528066,14); (972389737,14); (972251420,14); (972113115,14); (971974823,14); (971836543,14);
(971698275,14); (971560020,14); (971421777,14); (971283546,14); (971145327,14); (971007120,14); (970868926,14); (970730744,14);
(970592574,14); (970454417,14); (970316272,14); (970178139,14); (970040018,14); (969901909,14); (969763813,14); (969625729,14);
(969487657,14); (969349598,14); (969211550,14); (969073515,14); (968935492,14); (968797482,14); (968659483,14); (968521497,14);
(968383523,14); (968245561,14); (968107612,14); (967969674,14); (967831749,14); (967693836,14); (967555935,14); (967418047,14);
(967280171,14); (967142306,14); (967004455,14); (966866615,14); (966728787,14); (966590972,14); (966453169,14); (966315378,14);
(966177599,14); (966039833,14); (965902078,14); (965764336,14); (965626606,14); (965488889,14); (965351183,14); (965213490,14);
(965075808,14); (964938139,14); (964800482,14); (964662838,14); (964525205,14); (964387585,14); (964249977,14); (964112381,14);
(963974797,14); (963837225,14); (963699666,14); (963562118,14); (963424583,14); (963287060,14); (963149549,14); (963012051,14);
(962874564,14); (962737090,14); (962599627,14); (962462177,14); (962324739,14); (962187314,14); (962049900,14); (961912498,14);
(961775109,14); (961637732,14); (961500367,14); (961363014,14); (961225673,14); (961088344,14); (960951028,14); (960813723,14);
(960676431,14); (960539151,14); (960401883,14); (960264627,14); (960127383,14); (959990151,14); (959852932,14); (959715724,14);
(959578529,14); (959441346,14); (959304175,14); (959167016,14); (959029869,14); (958892734,14); (958755612,14); (958618501,14);
(958481403,14); (958344316,14); (958207242,14); (958070180,14); (957933130,14); (957796092,14); (957659066,14); (957522052,14);
(957385051,14); (957248061,14); (957111084,14); (956974118,14); (956837165,14); (956700224,14); (956563295,14); (956426378,14);
(956289473,14); (956152580,14); (956015699,14); (955878830,14); (955741973,14); (955605129,14); (955468296,14); (955331476,14);
(955194667,14); (955057871,14); (954921087,14); (954784314,14); (954647554,14); (954510806,14); (954374070,14); (954237346,14);
(954100634,14); (953963934,14); (953827246,14); (953690570,14); (953553907,14); (953417255,14); (953280615,14); (953143988,14);
(953007372,14); (952870768,14); (952734177,14); (952597597,14); (952461030,14); (952324475,14); (952187931,14); (952051400,14);
(951914880,14); (951778373,14); (951641878,14); (951505395,14); (951368923,14); (951232464,14); (951096017,14); (950959582,14);
(950823158,14); (950686747,14); (950550348,14); (950413961,14); (950277586,14); (950141223,14); (950004872,14); (949868533,14);
(949732205,14); (949595890,14); (949459587,14); (949323296,14); (949187017,14); (949050750,14); (948914495,14); (948778251,14);
(948642020,14); (948505801,14); (948369594,14); (948233399,14); (948097215,14); (947961044,14); (947824885,14); (947688738,14);
(947552602,14); (947416479,14); (947280368,14); (947144268,14); (947008181,14); (946872105,14); (946736042,14); (946599990,14);
(946463951,14); (946327923,14); (946191908,14); (946055904,14); (945919912,14); (945783933,14); (945647965,14); (945512009,14);
(945376065,14); (945240133,14); (945104213,14); (944968305,14); (944832409,14); (944696525,14); (944560652,14); (944424792,14);
(944288944,14); (944153107,14); (944017283,14); (943881470,14); (943745670,14); (943609881,14); (943474104,14); (943338339,14);
(943202587,14); (943066846,14); (942931117,14); (942795399,14); (942659694,14); (942524001,14); (942388320,14); (942252650,14);
(942116993,14); (941981347,14); (941845713,14); (941710091,14); (941574481,14); (941438883,14); (941303297,14); (941167723,14);
(941032161,14); (940896610,14); (940761072,14); (940625545,14); (940490031,14); (940354528,14); (940219037,14); (940083558,14);
(939948091,14); (939812635,14); (939677192,14); (939541761,14); (939406341,14); (939270933,14); (939135537,14); (939000153,14);
(938864781,14); (938729421,14); (938594073,14); (938458736,14); (938323412,14); (938188099,14); (938052798,14); (937917509,14);
(937782232,14); (937646967,14); (937511713,14); (937376472,14); (937241242,14); (937106024,14); (936970818,14); (936835624,14);
(936700442,14); (936565271,14); (936430113,14); (936294966,14); (936159831,14); (936024708,14); (935889597,14); (935754497,14);
(935619410,14); (935484334,14); (935349270,14); (935214218,14); (935079178,14); (934944149,14); (934809133,14); (934674128,14);
(934539135,14); (934404154,14); (934269185,14); (934134228,14); (933999282,14); (933864348,14); (933729426,14); (933594516,14);
(933459618,14); (933324731,14); (933189856,14); (933054994,14); (932920142,14); (932785303,14); (932650476,14); (932515660,14);
(932380856,14); (932246064,14); (932111284,14); (931976515,14); (931841758,14); (931707014,14); (931572280,14); (931437559,14);
(931302850,14); (931168152,14); (931033466,14); (930898792,14); (930764129,14); (930629479,14); (930494840,14); (930360213,14);
(930225597,14); (930090994,14); (929956402,14); (929821822,14); (929687254,14); (929552698,14); (929418153,14); (929283620,14);
(929149099,14); (929014590,14); (928880092,14); (928745606,14); (928611132,14); (928476670,14); (928342219,14); (928207780,14);
(928073353,14); (927938938,14); (927804534,14); (927670143,14); (927535762,14); (927401394,14); (927267038,14); (927132693,14);
(926998360,14); (926864038,14); (926729729,14); (926595431,14); (926461144,14); (926326870,14); (926192607,14); (926058356,14);
(925924117,14); (925789890,14); (925655674,14); (925521470,14); (925387277,14); (925253097,14); (925118928,14); (924984771,14);
(924850625,14); (924716491,14); (924582369,14); (924448259,14); (924314160,14); (924180073,14); (924045998,14); (923911934,14);
(923777883,14); (923643842,14); (923509814,14); (923375797,14); (923241792,14); (923107799,14); (922973817,14); (922839847,14);
(922705889,14); (922571942,14); (922438008,14); (922304084,14); (922170173,14); (922036273,14); (921902385,14); (921768508,14);
(921634644,14); (921500790,14); (921366949,14); (921233119,14); (921099301,14); (920965495,14); (920831700,14); (920697917,14);
(920564145,14); (920430386,14); (920296638,14); (920162901,14); (920029176,14); (919895463,14); (919761762,14); (919628072,14);
(919494394,14); (919360727,14); (919227072,14); (919093429,14); (918959798,14); (918826178,14); (918692569,14); (918558973,14);
(918425388,14); (918291814,14); (918158253,14); (918024703,14); (917891164,14); (917757637,14); (917624122,14); (917490619,14);
(917357127,14); (917223647,14); (917090178,14); (916956721,14); (916823275,14); (916689842,14); (916556419,14); (916423009,14);
(916289610,14); (916156223,14); (916022847,14); (915889483,14); (915756130,14); (915622790,14); (915489460,14); (915356143,14);
(915222837,14); (915089542,14); (914956259,14); (914822988,14); (914689728,14); (914556480,14); (914423244,14); (914290019,14);
(914156806,14); (914023604,14); (913890414,14); (913757236,14); (913624069,14); (913490913,14); (913357770,14); (913224637,14);
(913091517,14); (912958408,14); (912825310,14); (912692225,14); (912559150,14); (912426088,14); (912293036,14); (912159997,14);
(912026969,14); (911893953,14); (911760948,14); (911627954,14); (911494973,14); (911362002,14); (911229044,14); (911096097,14);
(910963161,14); (910830237,14); (910697325,14); (910564424,14); (910431535,14); (910298657,14); (910165791,14); (910032936,14);
(909900093,14); (909767262,14); (909634442,14); (909501633,14); (909368836,14); (909236051,14); (909103277,14); (908970515,14);
(908837764,14); (908705025,14); (908572297,14); (908439581,14); (908306876,14); (908174183,14); (908041501,14); (907908831,14);
(907776173,14); (907643526,14); (907510890,14); (907378266,14); (907245653,14); (907113052,14); (906980463,14); (906847885,14);
(906715319,14); (906582764,14); (906450220,14); (906317688,14); (906185168,14); (906052659,14); (905920161,14); (905787675,14);
(905655201,14); (905522738,14); (905390286,14); (905257846,14); (905125418,14); (904993001,14); (904860595,14); (904728201,14);
(904595819,14); (904463448,14); (904331088,14); (904198740,14); (904066404,14); (903934078,14); (903801765,14); (903669463,14);
(903537172,14); (903404893,14); (903272625,14); (903140369,14); (903008124,14); (902875890,14); (902743668,14); (902611458,14);
(902479259,14); (902347071,14); (902214895,14); (902082731,14); (901950578,14); (901818436,14); (901686306,14); (901554187,14);
(901422079,14); (901289984,14); (901157899,14); (901025826,14); (900893764,14); (900761714,14); (900629676,14); (900497648,14);
(900365633,14); (900233628,14); (900101635,14); (899969654,14); (899837684,14); (899705725,14); (899573778,14); (899441842,14);
(899309918,14); (899178005,14); (899046103,14); (898914213,14); (898782334,14); (898650467,14); (898518611,14); (898386767,14);
(898254934,14); (898123112,14); (897991302,14); (897859503,14); (897727716,14); (897595940,14); (897464175,14); (897332422,14);
(897200680,14); (897068950,14); (896937231,14); (896805523,14); (896673827,14); (896542142,14); (896410469,14); (896278807,14);
(896147156,14); (896015517,14); (895883889,14); (895752272,14); (895620667,14); (895489074,14); (895357491,14); (895225920,14);
(895094361,14); (894962813,14); (894831276,14); (894699750,14); (894568236,14); (894436734,14); (894305242,14); (894173762,14);
(894042294,14); (893910837,14); (893779391,14); (893647956,14); (893516533,14); (893385121,14); (893253721,14); (893122332,14);
(892990954,14); (892859588,14); (892728233,14); (892596889,14); (892465557,14); (892334236,14); (892202926,14); (892071628,14);
(891940341,14); (891809065,14); (891677801,14); (891546548,14); (891415306,14); (891284076,14); (891152857,14); (891021650,14);
(890890453,14); (890759269,14); (890628095,14); (890496933,14); (890365782,14); (890234642,14); (890103514,14); (889972397,14);
(889841291,14); (889710197,14); (889579114,14); (889448042,14); (889316982,14); (889185933,14); (889054895,14); (888923868,14);
(888792853,14); (888661849,14); (888530857,14); (888399875,14); (888268905,14); (888137947,14); (888006999,14); (887876063,14);
(887745139,14); (887614225,14); (887483323,14); (887352432,14); (887221553,14); (887090684,14); (886959827,14); (886828981,14);
(886698147,14); (886567324,14); (886436512,14); (886305711,14); (886174922,14); (886044144,14); (885913377,14); (885782622,14);
(885651877,14); (885521144,14); (885390423,14); (885259712,14); (885129013,14); (884998325,14); (884867649,14); (884736983,14);
(884606329,14); (884475686,14); (884345055,14); (884214434,14); (884083825,14); (883953227,14); (883822641,14); (883692066,14);
(883561501,14); (883430949,14); (883300407,14); (883169877,14); (883039358,14); (882908850,14); (882778353,14); (882647868,14);
(882517394,14); (882386931,14); (882256479,14); (882126039,14); (881995609,14); (881865191,14); (881734785,14); (881604389,14);
(881474005,14); (881343632,14); (881213270,14); (881082919,14); (880952580,14); (880822252,14); (880691935,14); (880561629,14);
(880431334,14); (880301051,14); (880170779,14); (880040518,14); (879910268,14); (879780030,14); (879649802,14); (879519586,14);
(879389381,14); (879259188,14); (879129005,14); (878998834,14); (878868674,14); (878738525,14); (878608387,14); (878478261,14);
(878348145,14); (878218041,14); (878087948,14); (877957867,14); (877827796,14); (877697737,14); (877567688,14); (877437651,14);
(877307626,14); (877177611,14); (877047607,14); (876917615,14); (876787634,14); (876657664,14); (876527705,14); (876397758,14);
(876267821,14); (876137896,14); (876007982,14); (875878079,14); (875748187,14); (875618306,14); (875488437,14); (875358578,14);
(875228731,14); (875098895,14); (874969070,14); (874839257,14); (874709454,14); (874579663,14); (874449882,14); (874320113,14);
(874190355,14); (874060608,14); (873930873,14); (873801148,14); (873671435,14); (873541733,14); (873412041,14); (873282361,14);
(873152693,14); (873023035,14); (872893388,14); (872763753,14); (872634128,14); (872504515,14); (872374913,14); (872245322,14);
(872115742,14); (871986173,14); (871856616,14); (871727069,14); (871597534,14); (871468010,14); (871338497,14); (871208995,14);
(871079504,14); (870950024,14); (870820555,14); (870691097,14); (870561651,14); (870432216,14); (870302791,14); (870173378,14);
(870043976,14); (869914585,14); (869785205,14); (869655836,14); (869526478,14); (869397132,14); (869267796,14); (869138472,14);
(869009158,14); (868879856,14); (868750565,14); (868621285,14); (868492016,14); (868362758,14); (868233511,14); (868104275,14);
(867975051,14); (867845837,14); (867716634,14); (867587443,14); (867458262,14); (867329093,14); (867199935,14); (867070788,14);
(866941651,14); (866812526,14); (866683412,14); (866554309,14); (866425217,14); (866296137,14); (866167067,14); (866038008,14);
(865908960,14); (865779924,14); (865650898,14); (865521884,14); (865392880,14); (865263888,14); (865134906,14); (865005936,14);
(864876977,14); (864748028,14); (864619091,14); (864490165,14); (864361250,14); (864232346,14); (864103452,14); (863974570,14);
(863845699,14); (863716839,14); (863587990,14); (863459152,14); (863330326,14); (863201510,14); (863072705,14); (862943911,14);
(862815128,14); (862686356,14); (862557595,14); (862428846,14); (862300107,14); (862171379,14); (862042662,14); (861913957,14);
(861785262,14); (861656578,14); (861527905,14); (861399244,14); (861270593,14); (861141953,14); (861013325,14); (860884707,14);
(860756100,14); (860627504,14); (860498920,14); (860370346,14); (860241783,14); (860113231,14); (859984691,14); (859856161,14);
(859727642,14); (859599134,14); (859470638,14); (859342152,14); (859213677,14); (859085213,14); (858956760,14); (858828318,14);
(858699887,14); (858571467,14); (858443058,14); (858314660,14); (858186273,14); (858057897,14); (857929532,14); (857801178,14);
(857672834,14); (857544502,14); (857416181,14); (857287870,14); (857159571,14); (857031283,14); (856903005,14); (856774739,14);
(856646483,14); (856518238,14); (856390005,14); (856261782,14); (856133570,14); (856005369,14); (855877180,14); (855749001,14);
(855620833,14); (855492676,14); (855364529,14); (855236394,14); (855108270,14); (854980157,14); (854852054,14); (854723963,14);
(854595882,14); (854467813,14); (854339754,14); (854211706,14); (854083669,14); (853955644,14); (853827629,14); (853699624,14);
(853571631,14); (853443649,14); (853315678,14); (853187717,14); (853059768,14); (852931829,14); (852803902,14); (852675985,14);
(852548079,14); (852420184,14); (852292300,14); (852164427,14); (852036565,14); (851908713,14); (851780873,14); (851653043,14);
(851525225,14); (851397417,14); (851269620,14); (851141834,14); (851014059,14); (850886295,14); (850758542,14); (850630799,14);
(850503068,14); (850375347,14); (850247637,14); (850119938,14); (849992250,14); (849864573,14); (849736907,14); (849609252,14);
(849481607,14); (849353973,14); (849226351,14); (849098739,14); (848971138,14); (848843548,14); (848715968,14); (848588400,14);
(848460842,14); (848333296,14); (848205760,14); (848078235,14); (847950721,14); (847823217,14); (847695725,14); (847568243,14);
(847440773,14); (847313313,14); (847185864,14); (847058426,14); (846930998,14); (846803582,14); (846676176,14); (846548781,14);
(846421397,14); (846294024,14); (846166662,14); (846039311,14); (845911970,14); (845784640,14); (845657321,14); (845530013,14);
(845402716,14); (845275430,14); (845148154,14); (845020889,14); (844893635,14); (844766392,14); (844639160,14); (844511938,14);
(844384727,14); (844257528,14); (844130338,14); (844003160,14); (843875993,14); (843748836,14); (843621690,14); (843494555,14);
(843367431,14); (843240318,14); (843113215,14); (842986123,14); (842859042,14); (842731972,14); (842604913,14); (842477864,14);
(842350826,14); (842223799,14); (842096783,14); (841969778,14); (841842783,14); (841715799,14); (841588826,14); (841461864,14);
(841334913,14); (841207972,14); (841081042,14); (840954123,14); (840827214,14); (840700317,14); (840573430,14); (840446554,14);
(840319689,14); (840192834,14); (840065991,14); (839939158,14); (839812336,14); (839685524,14); (839558724,14); (839431934,14);
(839305155,14); (839178386,14); (839051629,14); (838924882,14); (838798146,14); (838671421,14); (838544706,14); (838418002,14);
(838291309,14); (838164627,14); (838037955,14); (837911294,14); (837784644,14); (837658005,14); (837531377,14); (837404759,14);
(837278152,14); (837151555,14); (837024970,14); (836898395,14); (836771831,14); (836645277,14); (836518735,14); (836392203,14);
(836265682,14); (836139171,14); (836012671,14); (835886182,14); (835759704,14); (835633237,14); (835506780,14); (835380334,14);
(835253898,14); (835127473,14); (835001060,14); (834874656,14); (834748264,14); (834621882,14); (834495511,14); (834369150,14);
(834242801,14); (834116462,14); (833990133,14); (833863816,14); (833737509,14); (833611213,14); (833484927,14); (833358653,14);
(833232388,14); (833106135,14); (832979892,14); (832853660,14); (832727439,14); (832601229,14); (832475029,14); (832348839,14);
(832222661,14); (832096493,14); (831970336,14); (831844189,14); (831718054,14); (831591928,14); (831465814,14); (831339710,14);
(831213617,14); (831087535,14); (830961463,14); (830835402,14); (830709351,14); (830583312,14); (830457283,14); (830331264,14);
(830205256,14); (830079259,14); (829953273,14); (829827297,14); (829701332,14); (829575378,14); (829449434,14); (829323501,14);
(829197578,14); (829071666,14); (828945765,14); (828819875,14); (828693995,14); (828568126,14); (828442267,14); (828316419,14);
(828190582,14); (828064755,14); (827938939,14); (827813134,14); (827687339,14); (827561555,14); (827435782,14); (827310019,14);
(827184267,14); (827058525,14); (826932794,14); (826807074,14); (826681364,14); (826555665,14); (826429977,14); (826304299,14);
(826178632,14); (826052975,14); (825927329,14); (825801694,14); (825676069,14); (825550455,14); (825424852,14); (825299259,14);
(825173677,14); (825048105,14); (824922544,14); (824796994,14); (824671454,14); (824545925,14); (824420406,14); (824294898,14);
(824169401,14); (824043914,14); (823918438,14); (823792972,14); (823667517,14); (823542072,14); (823416639,14); (823291215,14);
(823165803,14); (823040401,14); (822915009,14); (822789628,14); (822664258,14); (822538898,14); (822413549,14); (822288211,14);
(822162883,14); (822037565,14); (821912258,14); (821786962,14); (821661676,14); (821536401,14); (821411137,14); (821285883,14);
(821160639,14); (821035407,14); (820910184,14); (820784973,14); (820659772,14); (820534581,14); (820409401,14); (820284231,14);
(820159073,14); (820033924,14); (819908786,14); (819783659,14); (819658542,14); (819533436,14); (819408341,14); (819283256,14);
(819158181,14); (819033117,14); (818908064,14); (818783021,14); (818657989,14); (818532967,14); (818407956,14); (818282955,14);
(818157965,14); (818032985,14); (817908016,14); (817783058,14); (817658110,14); (817533172,14); (817408245,14); (817283329,14);
(817158423,14); (817033527,14); (816908642,14); (816783768,14); (816658904,14); (816534051,14); (816409208,14); (816284376,14);
(816159554,14); (816034743,14); (815909942,14); (815785152,14); (815660372,14); (815535603,14); (815410844,14); (815286096,14);
(815161358,14); (815036631,14); (814911914,14); (814787208,14); (814662513,14); (814537827,14); (814413153,14); (814288488,14);
(814163835,14); (814039192,14); (813914559,14); (813789937,14); (813665325,14); (813540724,14); (813416133,14); (813291552,14);
(813166983,14); (813042423,14); (812917874,14); (812793336,14); (812668808,14); (812544291,14); (812419784,14); (812295287,14);
(812170801,14); (812046326,14); (811921861,14); (811797406,14); (811672962,14); (811548529,14); (811424105,14); (811299693,14);
(811175290,14); (811050899,14); (810926517,14); (810802146,14); (810677786,14); (810553436,14); (810429096,14); (810304767,14);
(810180449,14); (810056141,14); (809931843,14); (809807556,14); (809683279,14); (809559012,14); (809434756,14); (809310511,14);
(809186276,14); (809062051,14); (808937837,14); (808813633,14); (808689440,14); (808565257,14); (808441085,14); (808316923,14);
(808192771,14); (808068630,14); (807944499,14); (807820379,14); (807696269,14); (807572170,14); (807448081,14); (807324002,14);
(807199934,14); (807075876,14); (806951829,14); (806827792,14); (806703766,14); (806579749,14); (806455744,14); (806331748,14);
(806207764,14); (806083789,14); (805959825,14); (805835871,14); (805711928,14); (805587995,14); (805464073,14); (805340161,14);
(805216259,14); (805092368,14); (804968487,14); (804844617,14); (804720757,14); (804596907,14); (804473068,14); (804349239,14);
(804225420,14); (804101612,14); (803977815,14); (803854027,14); (803730250,14); (803606484,14); (803482727,14); (803358982,14);
(803235246,14); (803111521,14); (802987806,14); (802864102,14); (802740408,14); (802616725,14); (802493051,14); (802369389,14);
(802245736,14); (802122094,14); (801998462,14); (801874841,14); (801751230,14); (801627629,14); (801504039,14); (801380459,14);
(801256890,14); (801133330,14); (801009782,14); (800886243,14); (800762715,14); (800639197,14); (800515690,14); (800392193,14);
(800268706,14); (800145229,14); (800021763,14); (799898308,14); (799774862,14); (799651427,14); (799528002,14); (799404588,14);
(799281184,14); (799157790,14); (799034407,14); (798911034,14); (798787671,14); (798664319,14); (798540977,14); (798417645,14);
(798294324,14); (798171013,14); (798047712,14); (797924422,14); (797801141,14); (797677872,14); (797554612,14); (797431363,14);
(797308124,14); (797184896,14); (797061678,14); (796938470,14); (796815272,14); (796692085,14); (796568908,14); (796445741,14);
(796322585,14); (796199439,14); (796076303,14); (795953178,14); (795830062,14); (795706958,14); (795583863,14); (795460779,14);
(795337705,14); (795214641,14); (795091588,14); (794968545,14); (794845512,14); (794722489,14); (794599477,14); (794476475,14);
(794353484,14); (794230502,14); (794107531,14); (793984570,14); (793861620,14); (793738680,14); (793615750,14); (793492830,14);
(793369921,14); (793247021,14); (793124133,14); (793001254,14); (792878386,14); (792755528,14); (792632680,14); (792509842,14);
(792387015,14); (792264198,14); (792141391,14); (792018595,14); (791895809,14); (791773033,14); (791650267,14); (791527511,14);
(791404766,14); (791282031,14); (791159307,14); (791036592,14); (790913888,14); (790791194,14); (790668510,14); (790545837,14);
(790423174,14); (790300521,14); (790177878,14); (790055245,14); (789932623,14); (789810011,14); (789687409,14); (789564818,14);
(789442236,14); (789319665,14); (789197104,14); (789074554,14); (788952013,14); (788829483,14); (788706963,14); (788584454,14);
(788461954,14); (788339465,14); (788216986,14); (788094517,14); (787972058,14); (787849610,14); (787727172,14); (787604744,14);
(787482326,14); (787359918,14); (787237521,14); (787115134,14); (786992757,14); (786870390,14); (786748034,14); (786625687,14);
(786503351,14); (786381025,14); (786258710,14); (786136404,14); (786014109,14); (785891824,14); (785769549,14); (785647284,14);
(785525029,14); (785402785,14); (785280551,14); (785158327,14); (785036113,14); (784913910,14); (784791716,14); (784669533,14);
(784547360,14); (784425197,14); (784303044,14); (784180902,14); (784058769,14); (783936647,14); (783814535,14); (783692434,14);
(783570342,14); (783448260,14); (783326189,14); (783204128,14); (783082077,14); (782960036,14); (782838006,14); (782715985,14);
(782593975,14); (782471975,14); (782349985,14); (782228005,14); (782106035,14); (781984076,14); (781862126,14); (781740187,14);
(781618258,14); (781496339,14); (781374430,14); (781252532,14); (781130643,14); (781008765,14); (780886897,14); (780765039,14);
(780643191,14); (780521353,14); (780399525,14); (780277708,14); (780155901,14); (780034103,14); (779912316,14); (779790539,14);
(779668773,14); (779547016,14); (779425269,14); (779303533,14); (779181807,14); (779060090,14); (778938384,14); (778816688,14);
(778695003,14); (778573327,14); (778451661,14); (778330006,14); (778208361,14); (778086725,14); (777965100,14); (777843485,14);
(777721880,14); (777600286,14); (777478701,14); (777357126,14); (777235562,14); (777114008,14); (776992463,14); (776870929,14);
(776749405,14); (776627891,14); (776506387,14); (776384894,14); (776263410,14); (776141936,14); (776020473,14); (775899020,14);
(775777576,14); (775656143,14); (775534720,14); (775413307,14); (775291904,14); (775170511,14); (775049128,14); (774927756,14);
(774806393,14); (774685041,14); (774563698,14); (774442366,14); (774321043,14); (774199731,14); (774078429,14); (773957137,14);
(773835855,14); (773714583,14); (773593321,14); (773472069,14); (773350828,14); (773229596,14); (773108374,14); (772987163,14);
(772865961,14); (772744770,14); (772623589,14); (772502417,14); (772381256,14); (772260105,14); (772138964,14); (772017833,14);
(771896712,14); (771775601,14); (771654500,14); (771533409,14); (771412328,14); (771291257,14); (771170196,14); (771049146,14);
(770928105,14); (770807074,14); (770686054,14); (770565043,14); (770444043,14); (770323052,14); (770202072,14); (770081101,14);
(769960141,14); (769839191,14); (769718250,14); (769597320,14); (769476400,14); (769355489,14); (769234589,14); (769113699,14);
(768992819,14); (768871949,14); (768751088,14); (768630238,14); (768509398,14); (768388568,14); (768267748,14); (768146938,14);
(768026138,14); (767905348,14); (767784568,14); (767663798,14); (767543038,14); (767422288,14); (767301547,14); (767180817,14);
(767060097,14); (766939387,14); (766818687,14); (766697997,14); (766577317,14); (766456647,14); (766335987,14); (766215337,14);
(766094697,14); (765974067,14); (765853447,14); (765732837,14); (765612237,14); (765491647,14); (765371066,14); (765250496,14);
(765129936,14); (765009386,14); (764888846,14); (764768315,14); (764647795,14); (764527285,14); (764406784,14); (764286294,14);
(764165814,14); (764045343,14); (763924883,14); (763804432,14); (763683992,14); (763563561,14); (763443141,14); (763322730,14);
(763202329,14); (763081939,14); (762961558,14); (762841187,14); (762720826,14); (762600475,14); (762480135,14); (762359804,14);
(762239483,14); (762119172,14); (761998870,14); (761878579,14); (761758298,14); (761638027,14); (761517765,14); (761397514,14);
(761277273,14); (761157041,14); (761036819,14); (760916608,14); (760796406,14); (760676214,14); (760556033,14); (760435861,14);
(760315699,14); (760195547,14); (760075405,14); (759955272,14); (759835150,14); (759715038,14); (759594935,14); (759474843,14);
(759354760,14); (759234688,14); (759114625,14); (758994572,14); (758874529,14); (758754496,14); (758634473,14); (758514460,14);
(758394457,14); (758274464,14); (758154480,14); (758034507,14); (757914543,14); (757794589,14); (757674646,14); (757554712,14);
(757434788,14); (757314874,14); (757194970,14); (757075075,14); (756955191,14); (756835316,14); (756715452,14); (756595597,14);
(756475752,14); (756355917,14); (756236092,14); (756116277,14); (755996472,14); (755876677,14); (755756891,14); (755637116,14);
(755517350,14); (755397594,14); (755277848,14); (755158112,14); (755038386,14); (754918670,14); (754798963,14); (754679267,14);
(754559580,14); (754439903,14); (754320236,14); (754200579,14); (754080932,14); (753961294,14); (753841667,14); (753722049,14);
(753602442,14); (753482844,14); (753363256,14); (753243678,14); (753124109,14); (753004551,14); (752885002,14); (752765463,14);
(752645935,14); (752526415,14); (752406906,14); (752287407,14); (752167917,14); (752048438,14); (751928968,14); (751809508,14);
(751690058,14); (751570618,14); (751451187,14); (751331767,14); (751212356,14); (751092955,14); (750973564,14); (750854183,14);
(750734811,14); (750615450,14); (750496098,14); (750376756,14); (750257424,14); (750138102,14); (750018789,14); (749899487,14);
(749780194,14); (749660911,14); (749541638,14); (749422374,14); (749303121,14); (749183877,14); (749064643,14); (748945419,14);
(748826205,14); (748707001,14); (748587806,14); (748468621,14); (748349446,14); (748230281,14); (748111126,14); (747991980,14);
(747872844,14); (747753718,14); (747634602,14); (747515496,14); (747396399,14); (747277313,14); (747158236,14); (747039168,14);
(746920111,14); (746801063,14); (746682026,14); (746562998,14); (746443979,14); (746324971,14); (746205972,14); (746086984,14);
(745968005,14); (745849035,14); (745730076,14); (745611126,14); (745492186,14); (745373256,14); (745254336,14); (745135425,14);
(745016524,14); (744897633,14); (744778752,14); (744659880,14); (744541019,14); (744422167,14); (744303325,14); (744184492,14);
(744065669,14); (743946857,14); (743828053,14); (743709260,14); (743590476,14); (743471703,14); (743352939,14); (743234184,14);
(743115440,14); (742996705,14); (742877980,14); (742759264,14); (742640559,14); (742521863,14); (742403177,14); (742284501,14);
(742165834,14); (742047177,14); (741928530,14); (741809893,14); (741691265,14); (741572648,14); (741454039,14); (741335441,14);
(741216852,14); (741098274,14); (740979704,14); (740861145,14); (740742595,14); (740624055,14); (740505525,14); (740387005,14);
(740268494,14); (740149993,14); (740031501,14); (739913020,14); (739794548,14); (739676086,14); (739557633,14); (739439191,14);
(739320758,14); (739202334,14); (739083921,14); (738965517,14); (738847123,14); (738728738,14); (738610364,14); (738491999,14);
(738373643,14); (738255298,14); (738136962,14); (738018636,14); (737900319,14); (737782012,14); (737663715,14); (737545428,14);
(737427150,14); (737308882,14); (737190624,14); (737072375,14); (736954136,14); (736835907,14); (736717688,14); (736599478,14);
(736481278,14); (736363087,14); (736244907,14); (736126736,14); (736008574,14); (735890422,14); (735772280,14); (735654148,14);
(735536025,14); (735417912,14); (735299809,14); (735181716,14); (735063632,14); (734945557,14); (734827493,14); (734709438,14);
(734591393,14); (734473357,14); (734355331,14); (734237315,14); (734119308,14); (734001311,14); (733883324,14); (733765346,14);
(733647378,14); (733529420,14); (733411472,14); (733293533,14); (733175603,14); (733057684,14); (732939774,14); (732821873,14);
(732703983,14); (732586102,14); (732468230,14); (732350368,14); (732232516,14); (732114674,14); (731996841,14); (731879018,14);
(731761204,14); (731643400,14); (731525606,14); (731407822,14); (731290047,14); (731172281,14); (731054526,14); (730936779,14);
(730819043,14); (730701316,14); (730583599,14); (730465891,14); (730348194,14); (730230505,14); (730112827,14); (729995158,14);
(729877498,14); (729759848,14); (729642208,14); (729524578,14); (729406957,14); (729289345,14); (729171744,14); (729054152,14);
(728936569,14); (728818996,14); (728701433,14); (728583879,14); (728466335,14); (728348801,14); (728231276,14); (728113761,14);
(727996255,14); (727878759,14); (727761273,14); (727643796,14); (727526329,14); (727408871,14); (727291423,14); (727173985,14);
(727056556,14); (726939137,14); (726821727,14); (726704327,14); (726586936,14); (726469556,14); (726352184,14); (726234823,14);
(726117471,14); (726000128,14); (725882795,14); (725765472,14); (725648158,14); (725530854,14); (725413559,14); (725296274,14);
(725178999,14); (725061733,14); (724944476,14); (724827230,14); (724709992,14); (724592765,14); (724475547,14); (724358338,14);
(724241139,14); (724123950,14); (724006770,14); (723889600,14); (723772439,14); (723655288,14); (723538147,14); (723421015,14);
(723303892,14); (723186780,14); (723069676,14); (722952582,14); (722835498,14); (722718424,14); (722601359,14); (722484303,14);
(722367257,14); (722250221,14); (722133194,14); (722016176,14); (721899168,14); (721782170,14); (721665181,14); (721548202,14);
(721431233,14); (721314272,14); (721197322,14); (721080381,14); (720963449,14); (720846527,14); (720729615,14); (720612712,14);
(720495818,14); (720378935,14); (720262060,14); (720145195,14); (720028340,14); (719911494,14); (719794658,14); (719677831,14);
(719561014,14); (719444207,14); (719327408,14); (719210620,14); (719093841,14); (718977071,14); (718860311,14); (718743560,14);
(718626819,14); (718510088,14); (718393366,14); (718276653,14); (718159950,14); (718043256,14); (717926572,14); (717809898,14);
(717693233,14); (717576577,14); (717459931,14); (717343295,14); (717226668,14); (717110050,14); (716993442,14); (716876843,14);
(716760254,14); (716643675,14); (716527105,14); (716410544,14); (716293993,14); (716177451,14); (716060919,14); (715944396,14)].

(** entries 24576..26623 *)
Definition RECIPROCAL_12 : list (Z * Z) := [
(715827883,14); (715711379,14); (715594885,14); (715478400,14); (715361925,14); (715245459,14); (715129003,14); (715012556,14);
(714896119,14); (714779691,14); (714663273,14); (714546864,14); (714430464,14); (714314074,14); (714197694,14); (714081323,14);
(713964961,14); (713848609,14); (713732266,14); (713615933,14); (713499609,14); (713383295,14); (713266990,14); (713150694,14);
(713034409,14); (712918132,14); (712801865,14); (712685607,14); (712569359,14); (712453121,14); (712336891,14); (712220672,14);
(712104461,14); (711988260,14); (711872069,14); (711755887,14); (711639714,14); (711523551,14); (711407397,14); (711291253,14);
(711175118,14); (711058993,14); (710942877,14); (710826770,14); (710710673,14); (710594586,14); (710478507,14); (710362439,14);
(710246379,14); (710130329,14); (710014289,14); (709898258,14); (709782236,14); (709666224,14); (709550221,14); (709434227,14);
(709318243,14); (709202269,14); (709086304,14); (708970348,14); (708854402,14); (708738465,14); (708622537,14); (708506619,14);
(708390710,14); (708274811,14); (708158921,14); (708043041,14); (707927170,14); (707811308,14); (707695456,14); (707579613,14);
(707463779,14); (707347955,14); (707232141,14); (707116335,14); (707000539,14); (706884753,14); (706768976,14); (706653208,14);
(706537450,14); (706421701,14); (706305961,14); (706190231,14); (706074511,14); (705958799,14); (705843097,14); (705727405,14);
(705611721,14); (705496048,14); (705380383,14); (705264728,14); (705149082,14); (705033446,14); (704917819,14); (704802201,14);
(704686593,14); (704570994,14); (704455405,14); (704339825,14); (704224254,14); (704108693,14); (703993141,14); (703877598,14);
(703762065,14); (703646541,14); (703531026,14); (703415521,14); (703300025,14); (703184539,14); (703069062,14); (702953594,14);
(702838135,14); (702722686,14); (702607247,14); (702491816,14); (702376395,14); (702260984,14); (702145581,14); (702030188,14);
(701914805,14); (701799431,14); (701684066,14); (701568710,14); (701453364,14); (701338027,14); (701222699,14); (701107381,14);
(700992072,14); (700876773,14); (700761482,14); (700646201,14); (700530930,14); (700415668,14); (700300415,14); (700185171,14);
(700069937,14); (699954712,14); (699839496,14); (699724290,14); (699609093,14); (699493906,14); (699378727,14); (699263558,14);
(699148399,14); (699033248,14); (698918107,14); (698802975,14); (698687853,14); (698572740,14); (698457636,14); (698342542,14);
(698227456,14); (698112381,14); (697997314,14); (697882257,14); (697767209,14); (697652170,14); (697537141,14); (697422121,14);
(697307110,14); (697192109,14); (697077116,14); (696962134,14); (696847160,14); (696732196,14); (696617241,14); (696502295,14);
(696387359,14); (696272432,14); (696157514,14); (696042605,14); (695927706,14); (695812816,14); (695697935,14); (695583064,14);
(695468202,14); (695353349,14); (695238506,14); (695123671,14); (695008846,14); (694894031,14); (694779224,14); (694664427,14);
(694549639,14); (694434861,14); (694320091,14); (694205331,14); (694090580,14); (693975839,14); (693861107,14); (693746383,14);
(693631670,14); (693516965,14); (693402270,14); (693287584,14); (693172907,14); (693058240,14); (692943582,14); (692828933,14);
(692714293,14); (692599663,14); (692485042,14); (692370430,14); (692255827,14); (692141234,14); (692026649,14); (691912074,14);
(691797509,14); (691682952,14); (691568405,14); (691453867,14); (691339339,14); (691224819,14); (691110309,14); (690995808,14);
(690881316,14); (690766834,14); (690652360,14); (690537896,14); (690423441,14); (690308996,14); (690194560,14); (690080132,14);
(689965715,14); (689851306,14); (689736906,14); (689622516,14); (689508135,14); (689393763,14); (689279401,14); (689165048,14);
(689050703,14); (688936369,14); (688822043,14); (688707726,14); (688593419,14); (688479121,14); (688364832,14); (688250553,14);
(688136282,14); (688022021,14); (687907769,14); (687793526,14); (687679293,14); (687565068,14); (687450853,14); (687336647,14);
(687222451,14); (687108263,14); (686994085,14); (686879915,14); (686765755,14); (686651605,14); (686537463,14); (686423331,14);
(686309208,14); (686195094,14); (686080989,14); (685966893,14); (685852807,14); (685738730,14); (685624661,14); (685510603,14);
(685396553,14); (685282512,14); (685168481,14); (685054459,14); (684940446,14); (684826442,14); (684712448,14); (684598462,14);
(684484486,14); (684370519,14); (684256561,14); (684142612,14); (684028673,14); (683914742,14); (683800821,14); (683686909,14);
(683573006,14); (683459112,14); (683345228,14); (683231352,14); (683117486,14); (683003629,14); (682889781,14); (682775942,14);
(682662113,14); (682548292,14); (682434481,14); (682320679,14); (682206886,14); (682093102,14); (681979327,14); (681865562,14);
(681751805,14); (681638058,14); (681524320,14); (681410591,14); (681296871,14); (681183160,14); (681069459,14); (680955766,14);
(680842083,14); (680728409,14); (680614744,14); (680501088,14); (680387441,14); (680273804,14); (680160175,14); (680046556,14);
(679932946,14); (679819345,14); (679705753,14); (679592170,14); (679478597,14); (679365032,14); (679251477,14); (679137930,14);
(679024393,14); (678910865,14); (678797346,14); (678683836,14); (678570336,14); (678456844,14); (678343361,14); (678229888,14);
(678116424,14); (678002969,14); (677889523,14); (677776086,14); (677662658,14); (677549239,14); (677435830,14); (677322429,14);
(677209038,14); (677095656,14); (676982282,14); (676868918,14); (676755563,14); (676642217,14); (676528881,14); (676415553,14);
(676302234,14); (676188925,14); (676075625,14); (675962333,14); (675849051,14); (675735778,14); (675622514,14); (675509259,14);
(675396013,14); (675282776,14); (675169549,14); (675056330,14); (674943120,14); (674829920,14); (674716729,14); (674603546,14);
(674490373,14); (674377209,14); (674264054,14); (674150908,14); (674037771,14); (673924643,14); (673811524,14); (673698415,14);
(673585314,14); (673472223,14); (673359140,14); (673246067,14); (673133002,14); (673019947,14); (672906901,14); (672793864,14);
(672680835,14); (672567816,14); (672454806,14); (672341805,14); (672228814,14); (672115831,14); (672002857,14); (671889892,14);
(671776937,14); (671663990,14); (671551052,14); (671438124,14); (671325204,14); (671212294,14); (671099393,14); (670986500,14);
(670873617,14); (670760743,14); (670647877,14); (670535021,14); (670422174,14); (670309336,14); (670196507,14); (670083687,14);
(669970876,14); (669858074,14); (669745281,14); (669632497,14); (669519722,14); (669406956,14); (669294200,14); (669181452,14);
(669068713,14); (668955983,14); (668843263,14); (668730551,14); (668617848,14); (668505155,14); (668392470,14); (668279794,14);
(668167128,14); (668054470,14); (667941822,14); (667829182,14); (667716552,14); (667603930,14); (667491318,14); (667378714,14);
(667266120,14); (667153534,14); (667040958,14); (666928390,14); (666815832,14); (666703282,14); (666590742,14); (666478210,14);
(666365688,14); (666253174,14); (666140670,14); (666028174,14); (665915688,14); (665803210,14); (665690742,14); (665578282,14);
(665465832,14); (665353390,14); (665240958,14); (665128534,14); (665016120,14); (664903714,14); (664791318,14); (664678930,14);
(664566551,14); (664454182,14); (664341821,14); (664229469,14); (664117127,14); (664004793,14); (663892468,14); (663780152,14);
(663667846,14); (663555548,14); (663443259,14); (663330979,14); (663218708,14); (663106446,14); (662994193,14); (662881949,14);
(662769714,14); (662657488,14); (662545271,14); (662433063,14); (662320864,14); (662208673,14); (662096492,14); (661984320,14);
(661872156,14); (661760002,14); (661647857,14); (661535720,14); (661423593,14); (661311474,14); (661199364,14); (661087264,14);
(660975172,14); (660863089,14); (660751015,14); (660638950,14); (660526894,14); (660414847,14); (660302809,14); (660190780,14);
(660078760,14); (659966749,14); (659854746,14); (659742753,14); (659630768,14); (659518793,14); (659406826,14); (659294869,14);
(659182920,14); (659070980,14); (658959049,14); (658847127,14); (658735214,14); (658623310,14); (658511415,14); (658399529,14);
(658287651,14); (658175783,14); (658063924,14); (657952073,14); (657840231,14); (657728399,14); (657616575,14); (657504760,14);
(657392954,14); (657281157,14); (657169369,14); (657057590,14); (656945819,14); (656834058,14); (656722305,14); (656610562,14);
(656498827,14); (656387101,14); (656275384,14); (656163676,14); (656051977,14); (655940287,14); (655828606,14); (655716933,14);
(655605270,14); (655493615,14); (655381969,14); (655270333,14); (655158705,14); (655047086,14); (654935475,14); (654823874,14);
(654712282,14); (654600698,14); (654489124,14); (654377558,14); (654266001,14); (654154453,14); (654042914,14); (653931384,14);
(653819863,14); (653708350,14); (653596847,14); (653485352,14); (653373866,14); (653262389,14); (653150921,14); (653039462,14);
(652928012,14); (652816570,14); (652705138,14); (652593714,14); (652482299,14); (652370893,14); (652259496,14); (652148108,14);
(652036729,14); (651925358,14); (651813997,14); (651702644,14); (651591300,14); (651479965,14); (651368639,14); (651257321,14);
(651146013,14); (651034713,14); (650923422,14); (650812140,14); (650700867,14); (650589603,14); (650478348,14); (650367101,14);
(650255863,14); (650144635,14); (650033415,14); (649922203,14); (649811001,14); (649699808,14); (649588623,14); (649477447,14);
(649366280,14); (649255122,14); (649143973,14); (649032832,14); (648921701,14); (648810578,14); (648699464,14); (648588359,14);
(648477262,14); (648366175,14); (648255096,14); (648144026,14); (648032965,14); (647921913,14); (647810870,14); (647699835,14);
(647588810,14); (647477793,14); (647366785,14); (647255785,14); (647144795,14); (647033813,14); (646922840,14); (646811876,14);
(646700921,14); (646589975,14); (646479037,14); (646368108,14); (646257189,14); (646146277,14); (646035375,14); (645924482,14);
(645813597,14); (645702721,14); (645591854,14); (645480995,14); (645370146,14); (645259305,14); (645148473,14); (645037650,14);
(644926836,14); (644816030,14); (644705233,14); (644594445,14); (644483666,14); (644372896,14); (644262134,14); (644151382,14);
(644040638,14); (643929902,14); (643819176,14); (643708458,14); (643597749,14); (643487049,14); (643376358,14); (643265675,14);
(643155002,14); (643044337,14); (642933681,14); (642823033,14); (642712394,14); (642601765,14); (642491143,14); (642380531,14);
(642269928,14); (642159333,14); (642048747,14); (641938170,14); (641827601,14); (641717041,14); (641606490,14); (641495948,14);
(641385415,14); (641274890,14); (641164374,14); (641053867,14); (640943369,14); (640832879,14); (640722398,14); (640611926,14);
(640501463,14); (640391008,14); (640280562,14); (640170125,14); (640059697,14); (639949277,14); (639838866,14); (639728464,14);
(639618071,14); (639507686,14); (639397310,14); (639286943,14); (639176584,14); (639066235,14); (638955894,14); (638845562,14);
(638735238,14); (638624923,14); (638514618,14); (638404320,14); (638294032,14); (638183752,14); (638073481,14); (637963219,14);
(637852965,14); (637742720,14); (637632484,14); (637522257,14); (637412038,14); (637301828,14); (637191627,14); (637081434,14);
(636971250,14); (636861075,14); (636750909,14); (636640751,14); (636530602,14); (636420462,14); (636310331,14); (636200208,14);
(636090094,14); (635979988,14); (635869892,14); (635759804,14); (635649725,14); (635539654,14); (635429592,14); (635319539,14);
(635209495,14); (635099459,14); (634989432,14); (634879414,14); (634769404,14); (634659403,14); (634549411,14); (634439427,14);
(634329453,14); (634219486,14); (634109529,14); (633999580,14); (633889640,14); (633779709,14); (633669786,14); (633559872,14);
(633449967,14); (633340070,14); (633230182,14); (633120303,14); (633010433,14); (632900571,14); (632790717,14); (632680873,14);
(632571037,14); (632461210,14); (632351392,14); (632241582,14); (632131781,14); (632021988,14); (631912204,14); (631802429,14);
(631692663,14); (631582905,14); (631473156,14); (631363416,14); (631253684,14); (631143961,14); (631034246,14); (630924541,14);
(630814843,14); (630705155,14); (630595475,14); (630485804,14); (630376142,14); (630266488,14); (630156843,14); (630047206,14);
(629937578,14); (629827959,14); (629718349,14); (629608747,14); (629499154,14); (629389569,14); (629279993,14); (629170426,14);
(629060867,14); (628951317,14); (628841776,14); (628732243,14); (628622719,14); (628513204,14); (628403697,14); (628294199,14);
(628184709,14); (628075228,14); (627965756,14); (627856292,14); (627746838,14); (627637391,14); (627527953,14); (627418524,14);
(627309104,14); (627199692,14); (627090289,14); (626980894,14); (626871509,14); (626762131,14); (626652763,14); (626543403,14);
(626434051,14); (626324708,14); (626215374,14); (626106049,14); (625996732,14); (625887423,14); (625778124,14); (625668832,14);
(625559550,14); (625450276,14); (625341011,14); (625231754,14); (625122506,14); (625013267,14); (624904036,14); (624794814,14);
(624685600,14); (624576395,14); (624467199,14); (624358011,14); (624248832,14); (624139661,14); (624030499,14); (623921346,14);
(623812201,14); (623703064,14); (623593937,14); (623484818,14); (623375707,14); (623266606,14); (623157512,14); (623048428,14);
(622939352,14); (622830284,14); (622721225,14); (622612175,14); (622503133,14); (622394100,14); (622285076,14); (622176060,14);
(622067052,14); (621958053,14); (621849063,14); (621740082,14); (621631108,14); (621522144,14); (621413188,14); (621304241,14);
(621195302,14); (621086372,14); (620977450,14); (620868537,14); (620759633,14); (620650737,14); (620541849,14); (620432970,14);
(620324100,14); (620215239,14); (620106385,14); (619997541,14); (619888705,14); (619779878,14); (619671059,14); (619562248,14);
(619453447,14); (619344653,14); (619235869,14); (619127093,14); (619018325,14); (618909566,14); (618800816,14); (618692074,14);
(618583341,14); (618474616,14); (618365900,14); (618257192,14); (618148493,14); (618039802,14); (617931120,14); (617822447,14);
(617713782,14); (617605125,14); (617496477,14); (617387838,14); (617279207,14); (617170585,14); (617061971,14); (616953366,14);
(616844769,14); (616736181,14); (616627602,14); (616519030,14); (616410468,14); (616301914,14); (616193368,14); (616084831,14);
(615976303,14); (615867783,14); (615759272,14); (615650769,14); (615542274,14); (615433789,14); (615325311,14); (615216842,14);
(615108382,14); (614999930,14); (614891487,14); (614783052,14); (614674626,14); (614566208,14); (614457799,14); (614349398,14);
(614241006,14); (614132623,14); (614024247,14); (613915881,14); (613807523,14); (613699173,14); (613590832,14); (613482499,14);
(613374175,14); (613265859,14); (613157552,14); (613049253,14); (612940963,14); (612832682,14); (612724408,14); (612616144,14);
(612507888,14); (612399640,14); (612291401,14); (612183170,14); (612074948,14); (611966734,14); (611858529,14); (611750332,14);
(611642144,14); (611533964,14); (611425793,14); (611317630,14); (611209475,14); (611101329,14); (610993192,14); (610885063,14);
(610776943,14); (610668831,14); (610560727,14); (610452632,14); (610344546,14); (610236468,14); (610128398,14); (610020337,14);
(609912284,14); (609804240,14); (609696204,14); (609588177,14); (609480158,14); (609372148,14); (609264146,14); (609156153,14);
(609048168,14); (608940191,14); (608832223,14); (608724264,14); (608616312,14); (608508370,14); (608400436,14); (608292510,14);
(608184593,14); (608076684,14); (607968783,14); (607860891,14); (607753008,14); (607645133,14); (607537266,14); (607429408,14);
(607321558,14); (607213717,14); (607105884,14); (606998060,14); (606890244,14); (606782436,14); (606674637,14); (606566847,14);
(606459065,14); (606351291,14); (606243525,14); (606135769,14); (606028020,14); (605920280,14); (605812549,14); (605704825,14);
(605597111,14); (605489404,14); (605381706,14); (605274017,14); (605166336,14); (605058663,14); (604950999,14); (604843343,14);
(604735696,14); (604628057,14); (604520427,14); (604412805,14); (604305191,14); (604197586,14); (604089989,14); (603982401,14);
(603874821,14); (603767249,14); (603659686,14); (603552131,14); (603444585,14); (603337047,14); (603229517,14); (603121996,14);
(603014483,14); (602906979,14); (602799483,14); (602691996,14); (602584516,14); (602477046,14); (602369583,14); (602262129,14);
(602154684,14); (602047247,14); (601939818,14); (601832398,14); (601724986,14); (601617582,14); (601510187,14); (601402800,14);
(601295422,14); (601188052,14); (601080690,14); (600973337,14); (600865992,14); (600758656,14); (600651328,14); (600544008,14);
(600436697,14); (600329394,14); (600222099,14); (600114813,14); (600007535,14); (599900266,14); (599793005,14); (599685752,14);
(599578508,14); (599471272,14); (599364045,14); (599256825,14); (599149615,14); (599042412,14); (598935218,14); (598828033,14);
(598720855,14); (598613686,14); (598506526,14); (598399373,14); (598292230,14); (598185094,14); (598077967,14); (597970848,14);
(597863738,14); (597756636,14); (597649542,14); (597542457,14); (597435380,14); (597328311,14); (597221251,14); (597114199,14);
(597007155,14); (596900120,14); (596793093,14); (596686074,14); (596579064,14); (596472062,14); (596365069,14); (596258084,14);
(596151107,14); (596044138,14); (595937178,14); (595830226,14); (595723283,14); (595616348,14); (595509421,14); (595402502,14);
(595295592,14); (595188691,14); (595081797,14); (594974912,14); (594868035,14); (594761167,14); (594654307,14); (594547455,14);
(594440611,14); (594333776,14); (594226949,14); (594120131,14); (594013321,14); (593906519,14); (593799725,14); (593692940,14);
(593586163,14); (593479395,14); (593372634,14); (593265882,14); (593159139,14); (593052403,14); (592945676,14); (592838958,14);
(592732247,14); (592625545,14); (592518851,14); (592412166,14); (592305489,14); (592198820,14); (592092159,14); (591985507,14);
(591878863,14); (591772228,14); (591665600,14); (591558981,14); (591452371,14); (591345768,14); (591239174,14); (591132588,14);
(591026011,14); (590919441,14); (590812881,14); (590706328,14); (590599784,14); (590493247,14); (590386720,14); (590280200,14);
(590173689,14); (590067186,14); (589960691,14); (589854205,14); (589747727,14); (589641257,14); (589534796,14); (589428343,14);
(589321898,14); (589215461,14); (589109033,14); (589002613,14); (588896201,14); (588789797,14); (588683402,14); (588577015,14);
(588470636,14); (588364266,14); (588257904,14); (588151550,14); (588045204,14); (587938867,14); (587832538,14); (587726217,14);
(587619904,14); (587513600,14); (587407304,14); (587301016,14); (587194737,14); (587088465,14); (586982202,14); (586875948,14);
(586769701,14); (586663463,14); (586557233,14); (586451011,14); (586344798,14); (586238592,14); (586132395,14); (586026207,14);
(585920026,14); (585813854,14); (585707690,14); (585601534,14); (585495387,14); (585389248,14); (585283117,14); (585176994,14);
(585070879,14); (584964773,14); (584858675,14); (584752585,14); (584646504,14); (584540431,14); (584434365,14); (584328309,14);
(584222260,14); (584116220,14); (584010188,14); (583904164,14); (583798148,14); (583692140,14); (583586141,14); (583480150,14);
(583374168,14); (583268193,14); (583162227,14); (583056269,14); (582950319,14); (582844377,14); (582738444,14); (582632518,14);
(582526601,14); (582420693,14); (582314792,14); (582208900,14); (582103016,14); (581997140,14); (581891272,14); (581785413,14);
(581679561,14); (581573718,14); (581467883,14); (581362057,14); (581256238,14); (581150428,14); (581044626,14); (580938832,14);
(580833047,14); (580727269,14); (580621500,14); (580515739,14); (580409986,14); (580304242,14); (580198505,14); (580092777,14);
(579987057,14); (579881345,14); (579775642,14); (579669946,14); (579564259,14); (579458580,14); (579352909,14); (579247246,14);
(579141592,14); (579035946,14); (578930307,14); (578824678,14); (578719056,14); (578613442,14); (578507837,14); (578402240,14);
(578296651,14); (578191070,14); (578085497,14); (577979933,14); (577874376,14); (577768828,14); (577663288,14); (577557757,14);
(577452233,14); (577346718,14); (577241210,14); (577135711,14); (577030220,14); (576924738,14); (576819263,14); (576713797,14);
(576608338,14); (576502888,14); (576397446,14); (576292013,14); (576186587,14); (576081170,14); (575975760,14); (575870359,14);
(575764966,14); (575659581,14); (575554205,14); (575448836,14); (575343476,14); (575238124,14); (575132780,14); (575027444,14);
(574922116,14); (574816797,14); (574711485,14); (574606182,14); (574500887,14); (574395600,14); (574290321,14); (574185050,14);
(574079788,14); (573974533,14); (573869287,14); (573764049,14); (573658819,14); (573553597,14); (573448383,14); (573343178,14);
(573237980,14); (573132791,14); (573027610,14); (572922437,14); (572817272,14); (572712115,14); (572606966,14); (572501826,14);
(572396693,14); (572291569,14); (572186453,14); (572081345,14); (571976245,14); (571871153,14); (571766070,14); (571660994,14);
(571555927,14); (571450867,14); (571345816,14); (571240773,14); (571135738,14); (571030711,14); (570925693,14); (570820682,14);
(570715680,14); (570610685,14); (570505699,14); (570400721,14); (570295751,14); (570190789,14); (570085835,14); (569980889,14);
(569875952,14); (569771022,14); (569666101,14); (569561187,14); (569456282,14); (569351385,14); (569246496,14); (569141615,14);
(569036742,14); (568931878,14); (568827021,14); (568722172,14); (568617332,14); (568512500,14); (568407675,14); (568302859,14);
(568198051,14); (568093251,14); (567988459,14); (567883676,14); (567778900,14); (567674132,14); (567569373,14); (567464621,14);
(567359878,14); (567255143,14); (567150415,14); (567045696,14); (566940985,14); (566836282,14); (566731587,14); (566626900,14);
(566522222,14); (566417551,14); (566312888,14); (566208234,14); (566103587,14); (565998949,14); (565894319,14); (565789697,14);
(565685082,14); (565580476,14); (565475878,14); (565371288,14); (565266706,14); (565162132,14); (565057567,14); (564953009,14);
(564848459,14); (564743918,14); (564639384,14); (564534859,14); (564430341,14); (564325832,14); (564221330,14); (564116837,14);
(564012352,14); (563907875,14); (563803406,14); (563698945,14); (563594492,14); (563490047,14); (563385610,14); (563281181,14);
(563176760,14); (563072347,14); (562967942,14); (562863546,14); (562759157,14); (562654776,14); (562550404,14); (562446039,14);
(562341683,14); (562237334,14); (562132994,14); (562028662,14); (561924337,14); (561820021,14); (561715713,14); (561611412,14);
(561507120,14); (561402836,14); (561298560,14); (561194292,14); (561090031,14); (560985779,14); (560881535,14); (560777299,14);
(560673071,14); (560568851,14); (560464639,14); (560360435,14); (560256239,14); (560152051,14); (560047871,14); (559943700,14);
(559839536,14); (559735380,14); (559631232,14); (559527092,14); (559422960,14); (559318837,14); (559214721,14); (559110613,14);
(559006513,14); (558902421,14); (558798338,14); (558694262,14); (558590194,14); (558486134,14); (558382083,14); (558278039,14);
(558174003,14); (558069975,14); (557965956,14); (557861944,14); (557757940,14); (557653944,14); (557549957,14); (557445977,14);
(557342005,14); (557238041,14); (557134086,14); (557030138,14); (556926198,14); (556822266,14); (556718342,14); (556614426,14);
(556510519,14); (556406619,14); (556302727,14); (556198843,14); (556094967,14); (555991099,14); (555887239,14); (555783387,14);
(555679543,14); (555575707,14); (555471879,14); (555368059,14); (555264247,14); (555160443,14); (555056647,14); (554952858,14);
(554849078,14); (554745306,14); (554641542,14); (554537785,14); (554434037,14); (554330297,14); (554226564,14); (554122840,14);
(554019123,14); (553915415,14); (553811714,14); (553708022,14); (553604337,14); (553500661,14); (553396992,14); (553293331,14);
(553189678,14); (553086033,14); (552982397,14); (552878768,14); (552775147,14); (552671534,14); (552567929,14); (552464332,14);
(552360742,14); (552257161,14); (552153588,14); (552050023,14); (551946465,14); (551842916,14); (551739374,14); (551635841,14);
(551532315,14); (551428797,14); (551325288,14); (551221786,14); (551118292,14); (551014806,14); (550911328,14); (550807858,14);
(550704396,14); (550600942,14); (550497496,14); (550394057,14); (550290627,14); (550187205,14); (550083790,14); (549980384,14);
(549876985,14); (549773594,14); (549670211,14); (549566836,14); (549463470,14); (549360111,14); (549256759,14); (549153416,14);
(549050081,14); (548946754,14); (548843434,14); (548740123,14); (548636819,14); (548533523,14); (548430236,14); (548326956,14);
(548223684,14); (548120420,14); (548017164,14); (547913916,14); (547810675,14); (547707443,14); (547604218,14); (547501002,14);
(547397793,14); (547294592,14); (547191400,14); (547088215,14); (546985038,14); (546881868,14); (546778707,14); (546675554,14);
(546572408,14); (546469271,14); (546366141,14); (546263019,14); (546159905,14); (546056799,14); (545953701,14); (545850611,14);
(545747529,14); (545644455,14); (545541388,14); (545438329,14); (545335279,14); (545232236,14); (545129201,14); (545026174,14);
(544923155,14); (544820143,14); (544717140,14); (544614144,14); (544511157,14); (544408177,14); (544305205,14); (544202241,14);
(544099285,14); (543996336,14); (543893396,14); (543790463,14); (543687539,14); (543584622,14); (543481713,14); (543378812,14);
(543275919,14); (543173033,14); (543070156,14); (542967286,14); (542864425,14); (542761571,14); (542658725,14); (542555887,14);
(542453057,14); (542350234,14); (542247420,14); (542144613,14); (542041814,14); (541939023,14); (541836240,14); (541733465,14);
(541630697,14); (541527938,14); (541425186,14); (541322442,14); (541219706,14); (541116978,14); (541014258,14); (540911546,14);
(540808841,14); (540706144,14); (540603455,14); (540500774,14); (540398101,14); (540295436,14); (540192778,14); (540090129,14);
(539987487,14); (539884853,14); (539782227,14); (539679608,14); (539576998,14); (539474395,14); (539371800,14); (539269213,14);
(539166634,14); (539064063,14); (538961499,14); (538858944,14); (538756396,14); (538653856,14); (538551324,14); (538448799,14);
(538346283,14); (538243774,14); (538141273,14); (538038780,14); (537936295,14); (537833818,14); (537731348,14); (537628886,14);
(537526433,14); (537423986,14); (537321548,14); (537219118,14); (537116695,14); (537014280,14); (536911873,14); (536809474,14);
(536707082,14); (536604699,14); (536502323,14); (536399955,14); (536297595,14); (536195243,14); (536092898,14); (535990561,14);
(535888232,14); (535785911,14); (535683598,14); (535581292,14); (535478995,14); (535376705,14); (535274423,14); (535172148,14);
(535069882,14); (534967623,14); (534865372,14); (534763129,14); (534660893,14); (534558666,14); (534456446,14); (534354234,14);
(534252030,14); (534149834,14); (534047645,14); (533945464,14); (533843291,14); (533741126,14); (533638968,14); (533536819,14);
(533434677,14); (533332543,14); (533230416,14); (533128298,14); (533026187,14); (532924084,14); (532821989,14); (532719901,14);
(532617822,14); (532515750,14); (532413686,14); (532311629,14); (532209581,14); (532107540,14); (532005507,14); (531903482,14);
(531801464,14); (531699455,14); (531597453,14); (531495459,14); (531393472,14); (531291493,14); (531189523,14); (531087559,14);
(530985604,14); (530883656,14); (530781717,14); (530679785,14); (530577860,14); (530475944,14); (530374035,14); (530272134,14);
(530170241,14); (530068355,14); (529966477,14); (529864607,14); (529762745,14); (529660890,14); (529559044,14); (529457205,14);
(529355373,14); (529253550,14); (529151734,14); (529049926,14); (528948126,14); (528846333,14); (528744548,14); (528642771,14);
(528541002,14); (528439240,14); (528337486,14); (528235740,14); (528134002,14); (528032271,14); (527930548,14); (527828833,14);
(527727126,14); (527625426,14); (527523734,14); (527422050,14); (527320373,14); (527218704,14); (527117043,14); (527015390,14);
(526913744,14); (526812107,14); (526710476,14); (526608854,14); (526507239,14); (526405632,14); (526304033,14); (526202442,14);
(526100858,14); (525999282,14); (525897713,14); (525796153,14); (525694600,14); (525593054,14); (525491517,14); (525389987,14);
(525288465,14); (525186951,14); (525085444,14); (524983945,14); (524882454,14); (524780970,14); (524679494,14); (524578026,14);
(524476566,14); (524375113,14); (524273668,14); (524172231,14); (524070801,14); (523969379,14); (523867965,14); (523766559,14);
(523665160,14); (523563769,14); (523462385,14); (523361009,14); (523259641,14); (523158281,14); (523056929,14); (522955584,14);
(522854246,14); (522752917,14); (522651595,14); (522550281,14); (522448974,14); (522347675,14); (522246384,14); (522145101,14);
(522043825,14); (521942557,14); (521841297,14); (521740044,14); (521638799,14); (521537562,14); (521436332,14); (521335110,14);
(521233896,14); (521132689,14); (521031490,14); (520930299,14); (520829115,14); (520727939,14); (520626771,14); (520525610,14);
(520424458,14); (520323312,14); (520222175,14); (520121045,14); (520019923,14); (519918808,14); (519817701,14); (519716602,14);
(519615510,14); (519514426,14); (519413350,14); (519312281,14); (519211221,14); (519110167,14); (519009122,14); (518908084,14);
(518807053,14); (518706031,14); (518605016,14); (518504008,14); (518403009,14); (518302017,14); (518201032,14); (518100056,14);
(517999087,14); (517898125,14); (517797171,14); (517696225,14); (517595287,14); (517494356,14); (517393433,14); (517292517,14);
(517191609,14); (517090709,14); (516989816,14); (516888931,14); (516788054,14); (516687184,14); (516586322,14); (516485468,14);
(516384621,14); (516283782,14); (516182950,14); (516082126,14); (515981310,14); (515880501,14); (515779700,14); (515678907,14);
(515578121,14); (515477343,14); (515376573,14); (515275810,14); (515175055,14); (515074307,14); (514973567,14); (514872835,14);
(514772110,14); (514671393,14); (514570683,14); (514469981,14); (514369287,14); (514268600,14); (514167921,14); (514067250,14);
(513966586,14); (513865930,14); (513765281,14); (513664640,14); (513564007,14); (513463381,14); (513362763,14); (513262153,14);
(513161550,14); (513060954,14); (512960367,14); (512859787,14); (512759214,14); (512658649,14); (512558092,14); (512457542,14);
(512357000,14); (512256466,14); (512155939,14); (512055420,14); (511954908,14); (511854404,14); (511753907,14); (511653419,14);
(511552937,14); (511452464,14); (511351997,14); (511251539,14); (511151088,14); (511050645,14); (510950209,14); (510849781,14);
(510749360,14); (510648947,14); (510548542,14); (510448144,14); (510347754,14); (510247371,14); (510146996,14); (510046628,14);
(509946269,14); (509845916,14); (509745572,14); (509645234,14); (509544905,14); (509444583,14); (509344268,14); (509243961,14);
(509143662,14); (509043370,14); (508943086,14); (508842810,14); (508742541,14); (508642279,14); (508542025,14); (508441779,14);
(508341540,14); (508241309,14); (508141086,14); (508040870,14); (507940661,14); (507840460,14); (507740267,14); (507640081,14);
(507539903,14); (507439732,14); (507339569,14); (507239413,14); (507139265,14); (507039125,14); (506938992,14); (506838867,14);
(506738749,14); (506638639,14); (506538536,14); (506438441,14); (506338353,14); (506238273,14); (506138201,14); (506038136,14);
(505938079,14); (505838029,14); (505737987,14); (505637952,14); (505537925,14); (505437905,14); (505337893,14); (505237888,14);
(505137891,14); (505037902,14); (504937920,14); (504837945,14); (504737978,14); (504638019,14); (504538067,14); (504438123,14);
(504338186,14); (504238257,14); (504138335,14); (504038421,14); (503938514,14); (503838615,14); (503738724,14); (503638840,14);
(503538963,14); (503439094,14); (503339233,14); (503239379,14); (503139532,14); (503039693,14); (502939862,14); (502840038,14);
(502740222,14); (502640413,14); (502540612,14); (502440818,14); (502341032,14); (502241253,14); (502141482,14); (502041718,14);
(501941962,14); (501842213,14); (501742472,14); (501642738,14); (501543012,14); (501443293,14); (501343582,14); (501243878,14);
(501144182,14); (501044493,14); (500944812,14); (500845139,14); (500745473,14); (500645814,14); (500546163,14); (500446519,14);
(500346883,14); (500247254,14); (500147633,14); (500048020,14); (499948413,14); (499848815,14); (499749224,14); (499649640,14);
(499550064,14); (499450495,14); (499350934,14); (499251380,14); (499151834,14); (499052295,14); (498952764,14); (498853240,14);
(498753724,14); (498654215,14); (498554714,14); (498455220,14); (498355734,14); (498256255,14); (498156783,14); (498057319,14);
(497957863,14); (497858414,14); (497758973,14); (497659539,14); (497560112,14); (497460693,14); (497361281,14); (497261877,14);
(497162481,14); (497063091,14); (496963710,14); (496864336,14); (496764969,14); (496665610,14); (496566258,14); (496466913,14);
(496367576,14); (496268247,14); (496168925,14); (496069611,14); (495970304,14); (495871004,14); (495771712,14); (495672427,14)].

(** entries 26624..28671 *)
Definition RECIPROCAL_13 : list (Z * Z) := [
(495573150,14); (495473880,14); (495374618,14); (495275363,14); (495176116,14); (495076876,14); (494977643,14); (494878418,14);
(494779201,14); (494679991,14); (494580788,14); (494481593,14); (494382405,14); (494283225,14); (494184052,14); (494084887,14);
(493985729,14); (493886578,14); (493787435,14); (493688299,14); (493589171,14); (493490050,14); (493390937,14); (493291831,14);
(493192733,14); (493093642,14); (492994558,14); (492895482,14); (492796413,14); (492697352,14); (492598298,14); (492499252,14);
(492400213,14); (492301181,14); (492202157,14); (492103140,14); (492004131,14); (491905129,14); (491806135,14); (491707148,14);
(491608168,14); (491509196,14); (491410232,14); (491311274,14); (491212324,14); (491113382,14); (491014447,14); (490915519,14);
(490816599,14); (490717686,14); (490618781,14); (490519883,14); (490420993,14); (490322109,14); (490223234,14); (490124365,14);
(490025505,14); (489926651,14); (489827805,14); (489728966,14); (489630135,14); (489531311,14); (489432495,14); (489333686,14);
(489234884,14); (489136090,14); (489037303,14); (488938524,14); (488839752,14); (488740987,14); (488642230,14); (488543480,14);
(488444738,14); (488346003,14); (488247275,14); (488148555,14); (488049842,14); (487951137,14); (487852439,14); (487753748,14);
(487655065,14); (487556389,14); (487457721,14); (487359060,14); (487260406,14); (487161760,14); (487063121,14); (486964489,14);
(486865865,14); (486767248,14); (486668639,14); (486570037,14); (486471442,14); (486372855,14); (486274275,14); (486175703,14);
(486077138,14); (485978580,14); (485880030,14); (485781487,14); (485682951,14); (485584423,14); (485485902,14); (485387388,14);
(485288882,14); (485190384,14); (485091892,14); (484993408,14); (484894932,14); (484796462,14); (484698001,14); (484599546,14);
(484501099,14); (484402659,14); (484304227,14); (484205802,14); (484107384,14); (484008973,14); (483910570,14); (483812175,14);
(483713787,14); (483615406,14); (483517032,14); (483418666,14); (483320307,14); (483221956,14); (483123611,14); (483025275,14);
(482926945,14); (482828623,14); (482730308,14); (482632001,14); (482533701,14); (482435408,14); (482337123,14); (482238845,14);
(482140574,14); (482042311,14); (481944055,14); (481845807,14); (481747565,14); (481649331,14); (481551105,14); (481452885,14);
(481354674,14); (481256469,14); (481158272,14); (481060082,14); (480961899,14); (480863724,14); (480765556,14); (480667396,14);
(480569242,14); (480471096,14); (480372958,14); (480274827,14); (480176703,14); (480078586,14); (479980477,14); (479882375,14);
(479784280,14); (479686193,14); (479588113,14); (479490040,14); (479391975,14); (479293917,14); (479195866,14); (479097823,14);
(478999787,14); (478901758,14); (478803737,14); (478705723,14); (478607716,14); (478509717,14); (478411724,14); (478313740,14);
(478215762,14); (478117792,14); (478019829,14); (477921873,14); (477823925,14); (477725984,14); (477628051,14); (477530124,14);
(477432205,14); (477334293,14); (477236389,14); (477138492,14); (477040602,14); (476942719,14); (476844844,14); (476746976,14);
(476649116,14); (476551262,14); (476453416,14); (476355578,14); (476257746,14); (476159922,14); (476062105,14); (475964296,14);
(475866493,14); (475768698,14); (475670911,14); (475573130,14); (475475357,14); (475377591,14); (475279833,14); (475182082,14);
(475084338,14); (474986601,14); (474888872,14); (474791150,14); (474693435,14); (474595727,14); (474498027,14); (474400334,14);
(474302648,14); (474204970,14); (474107299,14); (474009635,14); (473911978,14); (473814329,14); (473716687,14); (473619052,14);
(473521425,14); (473423804,14); (473326192,14); (473228586,14); (473130987,14); (473033396,14); (472935812,14); (472838236,14);
(472740667,14); (472643104,14); (472545550,14); (472448002,14); (472350462,14); (472252929,14); (472155403,14); (472057885,14);
(471960373,14); (471862869,14); (471765373,14); (471667883,14); (471570401,14); (471472926,14); (471375458,14); (471277998,14);
(471180545,14); (471083099,14); (470985660,14); (470888229,14); (470790805,14); (470693388,14); (470595978,14); (470498576,14);
(470401181,14); (470303793,14); (470206412,14); (470109038,14); (470011672,14); (469914313,14); (469816962,14); (469719617,14);
(469622280,14); (469524950,14); (469427627,14); (469330312,14); (469233003,14); (469135702,14); (469038409,14); (468941122,14);
(468843843,14); (468746571,14); (468649306,14); (468552048,14); (468454798,14); (468357555,14); (468260319,14); (468163090,14);
(468065868,14); (467968654,14); (467871447,14); (467774247,14); (467677055,14); (467579869,14); (467482691,14); (467385520,14);
(467288357,14); (467191200,14); (467094051,14); (466996909,14); (466899774,14); (466802647,14); (466705526,14); (466608413,14);
(466511307,14); (466414208,14); (466317117,14); (466220033,14); (466122955,14); (466025886,14); (465928823,14); (465831767,14);
(465734719,14); (465637678,14); (465540644,14); (465443618,14); (465346598,14); (465249586,14); (465152581,14); (465055583,14);
(464958593,14); (464861609,14); (464764633,14); (464667664,14); (464570702,14); (464473747,14); (464376800,14); (464279860,14);
(464182927,14); (464086001,14); (463989082,14); (463892171,14); (463795267,14); (463698370,14); (463601480,14); (463504597,14);
(463407722,14); (463310853,14); (463213992,14); (463117138,14); (463020291,14); (462923452,14); (462826619,14); (462729794,14);
(462632976,14); (462536165,14); (462439362,14); (462342565,14); (462245776,14); (462148994,14); (462052219,14); (461955451,14);
(461858691,14); (461761937,14); (461665191,14); (461568452,14); (461471720,14); (461374996,14); (461278278,14); (461181568,14);
(461084864,14); (460988168,14); (460891480,14); (460794798,14); (460698123,14); (460601456,14); (460504796,14); (460408143,14);
(460311497,14); (460214858,14); (460118227,14); (460021602,14); (459924985,14); (459828375,14); (459731772,14); (459635176,14);
(459538588,14); (459442006,14); (459345432,14); (459248865,14); (459152305,14); (459055752,14); (458959207,14); (458862668,14);
(458766137,14); (458669613,14); (458573096,14); (458476586,14); (458380083,14); (458283587,14); (458187099,14); (458090618,14);
(457994143,14); (457897676,14); (457801217,14); (457704764,14); (457608318,14); (457511880,14); (457415448,14); (457319024,14);
(457222607,14); (457126197,14); (457029795,14); (456933399,14); (456837010,14); (456740629,14); (456644255,14); (456547888,14);
(456451528,14); (456355175,14); (456258829,14); (456162491,14); (456066159,14); (455969835,14); (455873518,14); (455777208,14);
(455680905,14); (455584609,14); (455488320,14); (455392039,14); (455295764,14); (455199497,14); (455103237,14); (455006984,14);
(454910738,14); (454814499,14); (454718267,14); (454622043,14); (454525825,14); (454429615,14); (454333411,14); (454237215,14);
(454141026,14); (454044844,14); (453948670,14); (453852502,14); (453756341,14); (453660188,14); (453564041,14); (453467902,14);
(453371770,14); (453275645,14); (453179527,14); (453083416,14); (452987313,14); (452891216,14); (452795126,14); (452699044,14);
(452602969,14); (452506900,14); (452410839,14); (452314785,14); (452218738,14); (452122698,14); (452026666,14); (451930640,14);
(451834621,14); (451738610,14); (451642606,14); (451546608,14); (451450618,14); (451354635,14); (451258659,14); (451162690,14);
(451066728,14); (450970774,14); (450874826,14); (450778885,14); (450682952,14); (450587025,14); (450491106,14); (450395194,14);
(450299289,14); (450203391,14); (450107500,14); (450011616,14); (449915739,14); (449819869,14); (449724007,14); (449628151,14);
(449532302,14); (449436461,14); (449340627,14); (449244799,14); (449148979,14); (449053166,14); (448957360,14); (448861561,14);
(448765769,14); (448669984,14); (448574206,14); (448478435,14); (448382672,14); (448286915,14); (448191165,14); (448095423,14);
(447999687,14); (447903959,14); (447808238,14); (447712524,14); (447616816,14); (447521116,14); (447425423,14); (447329737,14);
(447234058,14); (447138386,14); (447042721,14); (446947064,14); (446851413,14); (446755769,14); (446660133,14); (446564503,14);
(446468880,14); (446373265,14); (446277657,14); (446182055,14); (446086461,14); (445990873,14); (445895293,14); (445799720,14);
(445704154,14); (445608595,14); (445513043,14); (445417498,14); (445321960,14); (445226429,14); (445130905,14); (445035388,14);
(444939878,14); (444844375,14); (444748879,14); (444653391,14); (444557909,14); (444462434,14); (444366967,14); (444271506,14);
(444176053,14); (444080606,14); (443985167,14); (443889734,14); (443794309,14); (443698890,14); (443603479,14); (443508074,14);
(443412677,14); (443317287,14); (443221904,14); (443126527,14); (443031158,14); (442935796,14); (442840441,14); (442745092,14);
(442649751,14); (442554417,14); (442459090,14); (442363770,14); (442268457,14); (442173151,14); (442077852,14); (441982560,14);
(441887275,14); (441791997,14); (441696726,14); (441601462,14); (441506205,14); (441410955,14); (441315712,14); (441220476,14);
(441125247,14); (441030025,14); (440934810,14); (440839602,14); (440744401,14); (440649207,14); (440554020,14); (440458840,14);
(440363667,14); (440268501,14); (440173342,14); (440078190,14); (439983045,14); (439887907,14); (439792776,14); (439697652,14);
(439602536,14); (439507426,14); (439412323,14); (439317227,14); (439222138,14); (439127056,14); (439031981,14); (438936913,14);
(438841852,14); (438746797,14); (438651750,14); (438556710,14); (438461677,14); (438366651,14); (438271632,14); (438176620,14);
(438081615,14); (437986617,14); (437891625,14); (437796641,14); (437701664,14); (437606694,14); (437511730,14); (437416774,14);
(437321825,14); (437226882,14); (437131947,14); (437037019,14); (436942097,14); (436847183,14); (436752275,14); (436657375,14);
(436562481,14); (436467595,14); (436372715,14); (436277842,14); (436182977,14); (436088118,14); (435993266,14); (435898422,14);
(435803584,14); (435708753,14); (435613929,14); (435519112,14); (435424302,14); (435329499,14); (435234703,14); (435139914,14);
(435045132,14); (434950357,14); (434855588,14); (434760827,14); (434666073,14); (434571325,14); (434476585,14); (434381852,14);
(434287125,14); (434192406,14); (434097693,14); (434002987,14); (433908289,14); (433813597,14); (433718912,14); (433624234,14);
(433529563,14); (433434899,14); (433340242,14); (433245592,14); (433150949,14); (433056313,14); (432961684,14); (432867061,14);
(432772446,14); (432677837,14); (432583236,14); (432488641,14); (432394054,14); (432299473,14); (432204899,14); (432110332,14);
(432015773,14); (431921220,14); (431826674,14); (431732134,14); (431637602,14); (431543077,14); (431448559,14); (431354047,14);
(431259543,14); (431165045,14); (431070555,14); (430976071,14); (430881594,14); (430787124,14); (430692661,14); (430598206,14);
(430503756,14); (430409314,14); (430314879,14); (430220451,14); (430126029,14); (430031615,14); (429937207,14); (429842807,14);
(429748413,14); (429654026,14); (429559646,14); (429465273,14); (429370907,14); (429276548,14); (429182196,14); (429087850,14);
(428993512,14); (428899180,14); (428804856,14); (428710538,14); (428616227,14); (428521923,14); (428427626,14); (428333336,14);
(428239053,14); (428144777,14); (428050507,14); (427956245,14); (427861989,14); (427767741,14); (427673499,14); (427579264,14);
(427485036,14); (427390815,14); (427296600,14); (427202393,14); (427108193,14); (427013999,14); (426919813,14); (426825633,14);
(426731460,14); (426637294,14); (426543135,14); (426448983,14); (426354837,14); (426260699,14); (426166567,14); (426072443,14);
(425978325,14); (425884214,14); (425790110,14); (425696013,14); (425601923,14); (425507839,14); (425413763,14); (425319693,14);
(425225631,14); (425131575,14); (425037526,14); (424943484,14); (424849449,14); (424755420,14); (424661399,14); (424567384,14);
(424473377,14); (424379376,14); (424285382,14); (424191395,14); (424097414,14); (424003441,14); (423909475,14); (423815515,14);
(423721562,14); (423627616,14); (423533677,14); (423439745,14); (423345820,14); (423251901,14); (423157990,14); (423064085,14);
(422970187,14); (422876296,14); (422782412,14); (422688535,14); (422594664,14); (422500801,14); (422406944,14); (422313094,14);
(422219251,14); (422125415,14); (422031586,14); (421937763,14); (421843948,14); (421750139,14); (421656337,14); (421562542,14);
(421468754,14); (421374973,14); (421281198,14); (421187430,14); (421093670,14); (420999916,14); (420906168,14); (420812428,14);
(420718695,14); (420624968,14); (420531248,14); (420437535,14); (420343829,14); (420250130,14); (420156438,14); (420062752,14);
(419969074,14); (419875402,14); (419781737,14); (419688078,14); (419594427,14); (419500782,14); (419407145,14); (419313514,14);
(419219890,14); (419126273,14); (419032662,14); (418939059,14); (418845462,14); (418751872,14); (418658289,14); (418564713,14);
(418471143,14); (418377580,14); (418284025,14); (418190476,14); (418096934,14); (418003398,14); (417909870,14); (417816348,14);
(417722833,14); (417629325,14); (417535824,14); (417442329,14); (417348842,14); (417255361,14); (417161887,14); (417068420,14);
(416974960,14); (416881506,14); (416788059,14); (416694619,14); (416601186,14); (416507760,14); (416414340,14); (416320928,14);
(416227522,14); (416134123,14); (416040731,14); (415947345,14); (415853966,14); (415760595,14); (415667230,14); (415573871,14);
(415480520,14); (415387175,14); (415293837,14); (415200506,14); (415107182,14); (415013865,14); (414920554,14); (414827250,14);
(414733953,14); (414640663,14); (414547379,14); (414454102,14); (414360833,14); (414267569,14); (414174313,14); (414081064,14);
(413987821,14); (413894585,14); (413801356,14); (413708133,14); (413614918,14); (413521709,14); (413428507,14); (413335312,14);
(413242123,14); (413148941,14); (413055767,14); (412962598,14); (412869437,14); (412776283,14); (412683135,14); (412589994,14);
(412496860,14); (412403732,14); (412310611,14); (412217498,14); (412124390,14); (412031290,14); (411938196,14); (411845110,14);
(411752030,14); (411658956,14); (411565890,14); (411472830,14); (411379777,14); (411286731,14); (411193692,14); (411100659,14);
(411007633,14); (410914614,14); (410821601,14); (410728596,14); (410635597,14); (410542605,14); (410449620,14); (410356641,14);
(410263669,14); (410170704,14); (410077746,14); (409984794,14); (409891850,14); (409798912,14); (409705980,14); (409613056,14);
(409520138,14); (409427227,14); (409334323,14); (409241425,14); (409148535,14); (409055651,14); (408962773,14); (408869903,14);
(408777039,14); (408684182,14); (408591332,14); (408498488,14); (408405651,14); (408312821,14); (408219998,14); (408127182,14);
(408034372,14); (407941569,14); (407848772,14); (407755983,14); (407663200,14); (407570424,14); (407477654,14); (407384892,14);
(407292136,14); (407199387,14); (407106644,14); (407013909,14); (406921180,14); (406828457,14); (406735742,14); (406643033,14);
(406550331,14); (406457636,14); (406364947,14); (406272265,14); (406179590,14); (406086922,14); (405994260,14); (405901605,14);
(405808957,14); (405716315,14); (405623681,14); (405531053,14); (405438431,14); (405345817,14); (405253209,14); (405160608,14);
(405068013,14); (404975425,14); (404882844,14); (404790270,14); (404697702,14); (404605141,14); (404512587,14); (404420040,14);
(404327499,14); (404234965,14); (404142438,14); (404049917,14); (403957403,14); (403864896,14); (403772395,14); (403679902,14);
(403587415,14); (403494934,14); (403402461,14); (403309994,14); (403217533,14); (403125080,14); (403032633,14); (402940193,14);
(402847759,14); (402755333,14); (402662913,14); (402570499,14); (402478093,14); (402385693,14); (402293299,14); (402200913,14);
(402108533,14); (402016160,14); (401923793,14); (401831433,14); (401739080,14); (401646734,14); (401554394,14); (401462061,14);
(401369735,14); (401277415,14); (401185102,14); (401092796,14); (401000496,14); (400908203,14); (400815917,14); (400723638,14);
(400631365,14); (400539099,14); (400446839,14); (400354586,14); (400262340,14); (400170101,14); (400077868,14); (399985642,14);
(399893422,14); (399801210,14); (399709004,14); (399616804,14); (399524611,14); (399432425,14); (399340246,14); (399248073,14);
(399155907,14); (399063748,14); (398971595,14); (398879449,14); (398787310,14); (398695177,14); (398603051,14); (398510932,14);
(398418819,14); (398326713,14); (398234614,14); (398142521,14); (398050435,14); (397958356,14); (397866283,14); (397774217,14);
(397682158,14); (397590105,14); (397498059,14); (397406019,14); (397313987,14); (397221960,14); (397129941,14); (397037928,14);
(396945922,14); (396853923,14); (396761930,14); (396669944,14); (396577964,14); (396485991,14); (396394025,14); (396302065,14);
(396210113,14); (396118166,14); (396026227,14); (395934294,14); (395842367,14); (395750448,14); (395658535,14); (395566628,14);
(395474728,14); (395382835,14); (395290949,14); (395199069,14); (395107196,14); (395015329,14); (394923469,14); (394831616,14);
(394739769,14); (394647929,14); (394556096,14); (394464269,14); (394372449,14); (394280636,14); (394188829,14); (394097029,14);
(394005235,14); (393913448,14); (393821668,14); (393729894,14); (393638127,14); (393546366,14); (393454613,14); (393362866,14);
(393271125,14); (393179391,14); (393087664,14); (392995943,14); (392904229,14); (392812522,14); (392720821,14); (392629126,14);
(392537439,14); (392445758,14); (392354084,14); (392262416,14); (392170755,14); (392079100,14); (391987452,14); (391895811,14);
(391804176,14); (391712548,14); (391620927,14); (391529312,14); (391437704,14); (391346102,14); (391254507,14); (391162919,14);
(391071337,14); (390979762,14); (390888194,14); (390796632,14); (390705076,14); (390613528,14); (390521985,14); (390430450,14);
(390338921,14); (390247399,14); (390155883,14); (390064374,14); (389972871,14); (389881375,14); (389789886,14); (389698403,14);
(389606927,14); (389515458,14); (389423995,14); (389332538,14); (389241089,14); (389149645,14); (389058209,14); (388966779,14);
(388875355,14); (388783939,14); (388692528,14); (388601125,14); (388509728,14); (388418337,14); (388326953,14); (388235576,14);
(388144206,14); (388052841,14); (387961484,14); (387870133,14); (387778789,14); (387687451,14); (387596120,14); (387504795,14);
(387413477,14); (387322166,14); (387230861,14); (387139562,14); (387048271,14); (386956986,14); (386865707,14); (386774435,14);
(386683170,14); (386591911,14); (386500659,14); (386409413,14); (386318174,14); (386226941,14); (386135715,14); (386044496,14);
(385953283,14); (385862077,14); (385770877,14); (385679684,14); (385588497,14); (385497317,14); (385406144,14); (385314977,14);
(385223816,14); (385132663,14); (385041515,14); (384950375,14); (384859241,14); (384768113,14); (384676992,14); (384585878,14);
(384494770,14); (384403669,14); (384312574,14); (384221486,14); (384130404,14); (384039329,14); (383948260,14); (383857198,14);
(383766143,14); (383675094,14); (383584052,14); (383493016,14); (383401987,14); (383310964,14); (383219948,14); (383128938,14);
(383037935,14); (382946939,14); (382855949,14); (382764966,14); (382673989,14); (382583018,14); (382492055,14); (382401097,14);
(382310147,14); (382219202,14); (382128265,14); (382037334,14); (381946409,14); (381855491,14); (381764580,14); (381673675,14);
(381582776,14); (381491884,14); (381400999,14); (381310120,14); (381219248,14); (381128382,14); (381037523,14); (380946670,14);
(380855824,14); (380764985,14); (380674152,14); (380583325,14); (380492505,14); (380401691,14); (380310884,14); (380220084,14);
(380129290,14); (380038502,14); (379947722,14); (379856947,14); (379766179,14); (379675418,14); (379584663,14); (379493915,14);
(379403173,14); (379312438,14); (379221709,14); (379130987,14); (379040271,14); (378949562,14); (378858859,14); (378768163,14);
(378677473,14); (378586790,14); (378496113,14); (378405443,14); (378314780,14); (378224122,14); (378133472,14); (378042828,14);
(377952190,14); (377861559,14); (377770934,14); (377680316,14); (377589705,14); (377499100,14); (377408501,14); (377317909,14);
(377227323,14); (377136744,14); (377046172,14); (376955606,14); (376865046,14); (376774493,14); (376683946,14); (376593406,14);
(376502873,14); (376412345,14); (376321825,14); (376231311,14); (376140803,14); (376050302,14); (375959807,14); (375869319,14);
(375778837,14); (375688362,14); (375597893,14); (375507431,14); (375416976,14); (375326526,14); (375236084,14); (375145647,14);
(375055217,14); (374964794,14); (374874377,14); (374783967,14); (374693563,14); (374603166,14); (374512775,14); (374422390,14);
(374332013,14); (374241641,14); (374151276,14); (374060918,14); (373970566,14); (373880220,14); (373789881,14); (373699548,14);
(373609222,14); (373518902,14); (373428589,14); (373338283,14); (373247982,14); (373157689,14); (373067401,14); (372977120,14);
(372886846,14); (372796578,14); (372706317,14); (372616062,14); (372525813,14); (372435571,14); (372345335,14); (372255106,14);
(372164884,14); (372074667,14); (371984458,14); (371894254,14); (371804058,14); (371713867,14); (371623683,14); (371533506,14);
(371443335,14); (371353170,14); (371263012,14); (371172861,14); (371082715,14); (370992577,14); (370902444,14); (370812318,14);
(370722199,14); (370632086,14); (370541980,14); (370451880,14); (370361786,14); (370271699,14); (370181618,14); (370091544,14);
(370001476,14); (369911415,14); (369821360,14); (369731311,14); (369641269,14); (369551234,14); (369461205,14); (369371182,14);
(369281166,14); (369191156,14); (369101153,14); (369011156,14); (368921165,14); (368831181,14); (368741203,14); (368651232,14);
(368561267,14); (368471309,14); (368381357,14); (368291412,14); (368201473,14); (368111540,14); (368021614,14); (367931694,14);
(367841781,14); (367751874,14); (367661973,14); (367572079,14); (367482192,14); (367392310,14); (367302436,14); (367212567,14);
(367122705,14); (367032850,14); (366943001,14); (366853158,14); (366763322,14); (366673492,14); (366583669,14); (366493852,14);
(366404041,14); (366314237,14); (366224439,14); (366134648,14); (366044863,14); (365955084,14); (365865312,14); (365775547,14);
(365685787,14); (365596035,14); (365506288,14); (365416548,14); (365326814,14); (365237087,14); (365147366,14); (365057652,14);
(364967944,14); (364878243,14); (364788547,14); (364698859,14); (364609176,14); (364519500,14); (364429831,14); (364340168,14);
(364250511,14); (364160860,14); (364071216,14); (363981579,14); (363891948,14); (363802323,14); (363712705,14); (363623093,14);
(363533487,14); (363443888,14); (363354295,14); (363264709,14); (363175129,14); (363085555,14); (362995988,14); (362906427,14);
(362816873,14); (362727324,14); (362637783,14); (362548248,14); (362458719,14); (362369196,14); (362279680,14); (362190170,14);
(362100667,14); (362011170,14); (361921679,14); (361832195,14); (361742717,14); (361653246,14); (361563781,14); (361474322,14);
(361384870,14); (361295424,14); (361205985,14); (361116551,14); (361027125,14); (360937704,14); (360848290,14); (360758882,14);
(360669481,14); (360580086,14); (360490698,14); (360401316,14); (360311940,14); (360222570,14); (360133207,14); (360043851,14);
(359954500,14); (359865156,14); (359775819,14); (359686487,14); (359597163,14); (359507844,14); (359418532,14); (359329226,14);
(359239927,14); (359150634,14); (359061347,14); (358972067,14); (358882793,14); (358793525,14); (358704264,14); (358615009,14);
(358525761,14); (358436518,14); (358347283,14); (358258053,14); (358168830,14); (358079613,14); (357990403,14); (357901199,14);
(357812001,14); (357722810,14); (357633625,14); (357544446,14); (357455274,14); (357366108,14); (357276948,14); (357187795,14);
(357098648,14); (357009508,14); (356920373,14); (356831245,14); (356742124,14); (356653009,14); (356563900,14); (356474797,14);
(356385701,14); (356296611,14); (356207528,14); (356118451,14); (356029380,14); (355940316,14); (355851257,14); (355762206,14);
(355673160,14); (355584121,14); (355495088,14); (355406062,14); (355317042,14); (355228028,14); (355139020,14); (355050019,14);
(354961025,14); (354872036,14); (354783054,14); (354694078,14); (354605109,14); (354516145,14); (354427189,14); (354338238,14);
(354249294,14); (354160356,14); (354071425,14); (353982499,14); (353893580,14); (353804668,14); (353715762,14); (353626862,14);
(353537968,14); (353449081,14); (353360200,14); (353271325,14); (353182457,14); (353093595,14); (353004739,14); (352915890,14);
(352827047,14); (352738210,14); (352649379,14); (352560555,14); (352471738,14); (352382926,14); (352294121,14); (352205322,14);
(352116529,14); (352027743,14); (351938963,14); (351850189,14); (351761422,14); (351672661,14); (351583906,14); (351495158,14);
(351406416,14); (351317680,14); (351228950,14); (351140227,14); (351051510,14); (350962799,14); (350874095,14); (350785397,14);
(350696705,14); (350608020,14); (350519341,14); (350430668,14); (350342001,14); (350253341,14); (350164687,14); (350076039,14);
(349987398,14); (349898763,14); (349810134,14); (349721512,14); (349632895,14); (349544285,14); (349455682,14); (349367084,14);
(349278493,14); (349189909,14); (349101330,14); (349012758,14); (348924192,14); (348835632,14); (348747079,14); (348658532,14);
(348569991,14); (348481457,14); (348392928,14); (348304406,14); (348215891,14); (348127381,14); (348038878,14); (347950381,14);
(347861891,14); (347773406,14); (347684928,14); (347596457,14); (347507991,14); (347419532,14); (347331079,14); (347242632,14);
(347154192,14); (347065758,14); (346977330,14); (346888909,14); (346800493,14); (346712084,14); (346623681,14); (346535285,14);
(346446895,14); (346358511,14); (346270133,14); (346181762,14); (346093396,14); (346005037,14); (345916685,14); (345828338,14);
(345739998,14); (345651664,14); (345563337,14); (345475015,14); (345386700,14); (345298391,14); (345210089,14); (345121793,14);
(345033502,14); (344945219,14); (344856941,14); (344768670,14); (344680405,14); (344592146,14); (344503893,14); (344415647,14);
(344327407,14); (344239173,14); (344150946,14); (344062724,14); (343974509,14); (343886300,14); (343798098,14); (343709901,14);
(343621711,14); (343533528,14); (343445350,14); (343357179,14); (343269013,14); (343180855,14); (343092702,14); (343004556,14);
(342916415,14); (342828281,14); (342740154,14); (342652032,14); (342563917,14); (342475808,14); (342387705,14); (342299609,14);
(342211519,14); (342123435,14); (342035357,14); (341947285,14); (341859220,14); (341771161,14); (341683108,14); (341595061,14);
(341507021,14); (341418987,14); (341330959,14); (341242937,14); (341154922,14); (341066912,14); (340978909,14); (340890912,14);
(340802922,14); (340714937,14); (340626959,14); (340538987,14); (340451021,14); (340363062,14); (340275109,14); (340187162,14);
(340099221,14); (340011286,14); (339923358,14); (339835436,14); (339747520,14); (339659610,14); (339571706,14); (339483809,14);
(339395918,14); (339308033,14); (339220154,14); (339132282,14); (339044415,14); (338956555,14); (338868701,14); (338780854,14);
(338693012,14); (338605177,14); (338517348,14); (338429525,14); (338341709,14); (338253898,14); (338166094,14); (338078296,14);
(337990504,14); (337902718,14); (337814939,14); (337727166,14); (337639399,14); (337551638,14); (337463883,14); (337376135,14);
(337288393,14); (337200657,14); (337112927,14); (337025203,14); (336937486,14); (336849774,14); (336762069,14); (336674371,14);
(336586678,14); (336498991,14); (336411311,14); (336323637,14); (336235969,14); (336148307,14); (336060652,14); (335973002,14);
(335885359,14); (335797722,14); (335710092,14); (335622467,14); (335534849,14); (335447236,14); (335359630,14); (335272030,14);
(335184437,14); (335096849,14); (335009268,14); (334921693,14); (334834124,14); (334746561,14); (334659004,14); (334571454,14);
(334483910,14); (334396371,14); (334308840,14); (334221314,14); (334133794,14); (334046281,14); (333958774,14); (333871273,14);
(333783778,14); (333696289,14); (333608806,14); (333521330,14); (333433860,14); (333346396,14); (333258938,14); (333171486,14);
(333084041,14); (332996601,14); (332909168,14); (332821741,14); (332734320,14); (332646905,14); (332559497,14); (332472094,14);
(332384698,14); (332297308,14); (332209924,14); (332122546,14); (332035175,14); (331947809,14); (331860450,14); (331773097,14);
(331685750,14); (331598409,14); (331511074,14); (331423746,14); (331336424,14); (331249107,14); (331161797,14); (331074493,14);
(330987196,14); (330899904,14); (330812619,14); (330725339,14); (330638066,14); (330550799,14); (330463538,14); (330376283,14);
(330289035,14); (330201792,14); (330114556,14); (330027326,14); (329940102,14); (329852884,14); (329765672,14); (329678467,14);
(329591267,14); (329504074,14); (329416887,14); (329329706,14); (329242531,14); (329155362,14); (329068199,14); (328981043,14);
(328893893,14); (328806748,14); (328719610,14); (328632478,14); (328545352,14); (328458233,14); (328371119,14); (328284012,14);
(328196910,14); (328109815,14); (328022726,14); (327935643,14); (327848566,14); (327761496,14); (327674431,14); (327587373,14);
(327500320,14); (327413274,14); (327326234,14); (327239200,14); (327152173,14); (327065151,14); (326978135,14); (326891126,14);
(326804122,14); (326717125,14); (326630134,14); (326543149,14); (326456170,14); (326369198,14); (326282231,14); (326195270,14);
(326108316,14); (326021368,14); (325934426,14); (325847489,14); (325760560,14); (325673636,14); (325586718,14); (325499806,14);
(325412901,14); (325326001,14); (325239108,14); (325152221,14); (325065340,14); (324978465,14); (324891596,14); (324804733,14);
(324717876,14); (324631026,14); (324544181,14); (324457343,14); (324370511,14); (324283685,14); (324196865,14); (324110051,14);
(324023243,14); (323936441,14); (323849645,14); (323762856,14); (323676072,14); (323589295,14); (323502523,14); (323415758,14);
(323328999,14); (323242246,14); (323155499,14); (323068758,14); (322982024,14); (322895295,14); (322808572,14); (322721856,14);
(322635146,14); (322548441,14); (322461743,14); (322375051,14); (322288365,14); (322201685,14); (322115011,14); (322028343,14);
(321941682,14); (321855026,14); (321768376,14); (321681733,14); (321595096,14); (321508464,14); (321421839,14); (321335220,14);
(321248607,14); (321162000,14); (321075399,14); (320988804,14); (320902215,14); (320815633,14); (320729056,14); (320642485,14);
(320555921,14); (320469363,14); (320382810,14); (320296264,14); (320209724,14); (320123190,14); (320036662,14); (319950140,14);
(319863624,14); (319777114,14); (319690610,14); (319604112,14); (319517621,14); (319431135,14); (319344656,14); (319258182,14);
(319171715,14); (319085254,14); (318998798,14); (318912349,14); (318825906,14); (318739469,14); (318653038,14); (318566613,14);
(318480194,14); (318393781,14); (318307374,14); (318220973,14); (318134579,14); (318048190,14); (317961808,14); (317875431,14);
(317789061,14); (317702696,14); (317616338,14); (317529985,14); (317443639,14); (317357299,14); (317270965,14); (317184637,14);
(317098314,14); (317011998,14); (316925688,14); (316839384,14); (316753087,14); (316666795,14); (316580509,14); (316494229,14);
(316407955,14); (316321688,14); (316235426,14); (316149170,14); (316062921,14); (315976677,14); (315890440,14); (315804208,14);
(315717983,14); (315631764,14); (315545550,14); (315459343,14); (315373142,14); (315286946,14); (315200757,14); (315114574,14);
(315028397,14); (314942226,14); (314856061,14); (314769902,14); (314683748,14); (314597601,14); (314511461,14); (314425326,14);
(314339197,14); (314253074,14); (314166957,14); (314080846,14); (313994741,14); (313908642,14); (313822550,14); (313736463,14);
(313650382,14); (313564308,14); (313478239,14); (313392176,14); (313306120,14); (313220069,14); (313134024,14); (313047986,14);
(312961953,14); (312875927,14); (312789906,14); (312703891,14); (312617883,14); (312531880,14); (312445884,14); (312359894,14);
(312273909,14); (312187931,14); (312101958,14); (312015992,14); (311930031,14); (311844077,14); (311758128,14); (311672186,14);
(311586250,14); (311500319,14); (311414395,14); (311328477,14); (311242564,14); (311156658,14); (311070757,14); (310984863,14);
(310898975,14); (310813092,14); (310727216,14); (310641346,14); (310555481,14); (310469623,14); (310383771,14); (310297924,14);
(310212084,14); (310126249,14); (310040421,14); (309954599,14); (309868782,14); (309782972,14); (309697167,14); (309611369,14);
(309525577,14); (309439790,14); (309354010,14); (309268235,14); (309182467,14); (309096704,14); (309010948,14); (308925197,14);
(308839453,14); (308753714,14); (308667982,14); (308582255,14); (308496535,14); (308410820,14); (308325111,14); (308239409,14);
(308153712,14); (308068021,14); (307982337,14); (307896658,14); (307810985,14); (307725319,14); (307639658,14); (307554003,14);
(307468354,14); (307382711,14); (307297075,14); (307211444,14); (307125819,14); (307040200,14); (306954587,14); (306868980,14)].

(** entries 28672..30719 *)
Definition RECIPROCAL_14 : list (Z * Z) := [
(306783379,14); (306697784,14); (306612195,14); (306526612,14); (306441034,14); (306355463,14); (306269898,14); (306184339,14);
(306098785,14); (306013238,14); (305927697,14); (305842161,14); (305756632,14); (305671109,14); (305585591,14); (305500080,14);
(305414574,14); (305329074,14); (305243581,14); (305158093,14); (305072611,14); (304987136,14); (304901666,14); (304816202,14);
(304730744,14); (304645292,14); (304559846,14); (304474406,14); (304388972,14); (304303544,14); (304218122,14); (304132705,14);
(304047295,14); (303961891,14); (303876492,14); (303791100,14); (303705714,14); (303620333,14); (303534958,14); (303449590,14);
(303364227,14); (303278870,14); (303193520,14); (303108175,14); (303022836,14); (302937503,14); (302852176,14); (302766855,14);
(302681540,14); (302596231,14); (302510927,14); (302425630,14); (302340339,14); (302255053,14); (302169774,14); (302084500,14);
(301999233,14); (301913971,14); (301828715,14); (301743465,14); (301658221,14); (301572983,14); (301487751,14); (301402525,14);
(301317305,14); (301232091,14); (301146883,14); (301061680,14); (300976484,14); (300891293,14); (300806109,14); (300720930,14);
(300635758,14); (300550591,14); (300465430,14); (300380275,14); (300295126,14); (300209983,14); (300124846,14); (300039714,14);
(299954589,14); (299869470,14); (299784356,14); (299699249,14); (299614147,14); (299529051,14); (299443961,14); (299358878,14);
(299273800,14); (299188728,14); (299103661,14); (299018601,14); (298933547,14); (298848498,14); (298763456,14); (298678419,14);
(298593389,14); (298508364,14); (298423345,14); (298338332,14); (298253325,14); (298168324,14); (298083329,14); (297998340,14);
(297913356,14); (297828379,14); (297743407,14); (297658441,14); (297573482,14); (297488528,14); (297403580,14); (297318638,14);
(297233702,14); (297148771,14); (297063847,14); (296978929,14); (296894016,14); (296809109,14); (296724209,14); (296639314,14);
(296554425,14); (296469542,14); (296384665,14); (296299793,14); (296214928,14); (296130068,14); (296045215,14); (295960367,14);
(295875525,14); (295790689,14); (295705859,14); (295621035,14); (295536217,14); (295451405,14); (295366598,14); (295281798,14);
(295197003,14); (295112214,14); (295027431,14); (294942654,14); (294857883,14); (294773118,14); (294688358,14); (294603605,14);
(294518857,14); (294434116,14); (294349380,14); (294264650,14); (294179926,14); (294095207,14); (294010495,14); (293925789,14);
(293841088,14); (293756393,14); (293671705,14); (293587022,14); (293502345,14); (293417673,14); (293333008,14); (293248349,14);
(293163695,14); (293079047,14); (292994405,14); (292909769,14); (292825139,14); (292740515,14); (292655897,14); (292571284,14);
(292486678,14); (292402077,14); (292317482,14); (292232893,14); (292148310,14); (292063733,14); (291979161,14); (291894596,14);
(291810036,14); (291725482,14); (291640934,14); (291556392,14); (291471856,14); (291387325,14); (291302801,14); (291218282,14);
(291133769,14); (291049262,14); (290964761,14); (290880266,14); (290795777,14); (290711293,14); (290626815,14); (290542343,14);
(290457878,14); (290373417,14); (290288963,14); (290204515,14); (290120072,14); (290035635,14); (289951205,14); (289866779,14);
(289782360,14); (289697947,14); (289613540,14); (289529138,14); (289444742,14); (289360352,14); (289275968,14); (289191590,14);
(289107217,14); (289022851,14); (288938490,14); (288854135,14); (288769786,14); (288685443,14); (288601106,14); (288516774,14);
(288432448,14); (288348129,14); (288263815,14); (288179506,14); (288095204,14); (288010908,14); (287926617,14); (287842332,14);
(287758053,14); (287673780,14); (287589512,14); (287505251,14); (287420995,14); (287336745,14); (287252501,14); (287168263,14);
(287084031,14); (286999804,14); (286915584,14); (286831369,14); (286747160,14); (286662957,14); (286578759,14); (286494568,14);
(286410382,14); (286326202,14); (286242028,14); (286157860,14); (286073697,14); (285989541,14); (285905390,14); (285821245,14);
(285737106,14); (285652972,14); (285568845,14); (285484723,14); (285400607,14); (285316497,14); (285232393,14); (285148294,14);
(285064202,14); (284980115,14); (284896034,14); (284811959,14); (284727889,14); (284643826,14); (284559768,14); (284475716,14);
(284391670,14); (284307629,14); (284223595,14); (284139566,14); (284055543,14); (283971526,14); (283887515,14); (283803509,14);
(283719510,14); (283635516,14); (283551528,14); (283467545,14); (283383569,14); (283299598,14); (283215633,14); (283131674,14);
(283047721,14); (282963773,14); (282879832,14); (282795896,14); (282711966,14); (282628041,14); (282544123,14); (282460210,14);
(282376303,14); (282292402,14); (282208507,14); (282124617,14); (282040734,14); (281956856,14); (281872984,14); (281789117,14);
(281705257,14); (281621402,14); (281537553,14); (281453710,14); (281369872,14); (281286041,14); (281202215,14); (281118395,14);
(281034581,14); (280950772,14); (280866969,14); (280783173,14); (280699381,14); (280615596,14); (280531817,14); (280448043,14);
(280364275,14); (280280513,14); (280196756,14); (280113005,14); (280029261,14); (279945521,14); (279861788,14); (279778061,14);
(279694339,14); (279610623,14); (279526913,14); (279443208,14); (279359509,14); (279275817,14); (279192129,14); (279108448,14);
(279024772,14); (278941103,14); (278857439,14); (278773780,14); (278690128,14); (278606481,14); (278522840,14); (278439205,14);
(278355575,14); (278271952,14); (278188334,14); (278104722,14); (278021115,14); (277937515,14); (277853920,14); (277770331,14);
(277686747,14); (277603170,14); (277519598,14); (277436032,14); (277352472,14); (277268917,14); (277185368,14); (277101825,14);
(277018288,14); (276934757,14); (276851231,14); (276767711,14); (276684197,14); (276600688,14); (276517185,14); (276433688,14);
(276350197,14); (276266712,14); (276183232,14); (276099758,14); (276016290,14); (275932827,14); (275849371,14); (275765920,14);
(275682474,14); (275599035,14); (275515601,14); (275432173,14); (275348751,14); (275265334,14); (275181924,14); (275098519,14);
(275015119,14); (274931726,14); (274848338,14); (274764956,14); (274681580,14); (274598209,14); (274514844,14); (274431485,14);
(274348132,14); (274264784,14); (274181442,14); (274098106,14); (274014776,14); (273931451,14); (273848132,14); (273764819,14);
(273681511,14); (273598210,14); (273514914,14); (273431623,14); (273348339,14); (273265060,14); (273181787,14); (273098520,14);
(273015258,14); (272932002,14); (272848752,14); (272765507,14); (272682269,14); (272599036,14); (272515808,14); (272432587,14);
(272349371,14); (272266161,14); (272182957,14); (272099758,14); (272016565,14); (271933378,14); (271850196,14); (271767020,14);
(271683850,14); (271600686,14); (271517527,14); (271434374,14); (271351227,14); (271268086,14); (271184950,14); (271101820,14);
(271018696,14); (270935577,14); (270852464,14); (270769357,14); (270686256,14); (270603160,14); (270520070,14); (270436985,14);
(270353907,14); (270270834,14); (270187767,14); (270104705,14); (270021649,14); (269938599,14); (269855555,14); (269772516,14);
(269689483,14); (269606456,14); (269523434,14); (269440418,14); (269357408,14); (269274404,14); (269191405,14); (269108412,14);
(269025425,14); (268942443,14); (268859467,14); (268776497,14); (268693532,14); (268610573,14); (268527620,14); (268444673,14);
(268361731,14); (268278795,14); (268195864,14); (268112940,14); (268030021,14); (267947107,14); (267864200,14); (267781298,14);
(267698401,14); (267615511,14); (267532626,14); (267449747,14); (267366873,14); (267284006,14); (267201143,14); (267118287,14);
(267035436,14); (266952591,14); (266869752,14); (266786918,14); (266704090,14); (266621268,14); (266538451,14); (266455640,14);
(266372835,14); (266290035,14); (266207241,14); (266124453,14); (266041671,14); (265958894,14); (265876123,14); (265793357,14);
(265710597,14); (265627843,14); (265545095,14); (265462352,14); (265379615,14); (265296883,14); (265214157,14); (265131437,14);
(265048723,14); (264966014,14); (264883311,14); (264800614,14); (264717922,14); (264635236,14); (264552555,14); (264469880,14);
(264387211,14); (264304548,14); (264221890,14); (264139238,14); (264056592,14); (263973951,14); (263891316,14); (263808686,14);
(263726063,14); (263643444,14); (263560832,14); (263478225,14); (263395624,14); (263313029,14); (263230439,14); (263147855,14);
(263065276,14); (262982703,14); (262900136,14); (262817575,14); (262735019,14); (262652468,14); (262569924,14); (262487385,14);
(262404852,14); (262322324,14); (262239802,14); (262157286,14); (262074775,14); (261992270,14); (261909771,14); (261827277,14);
(261744789,14); (261662307,14); (261579830,14); (261497359,14); (261414893,14); (261332434,14); (261249979,14); (261167531,14);
(261085088,14); (261002651,14); (260920219,14); (260837793,14); (260755373,14); (260672958,14); (260590549,14); (260508146,14);
(260425748,14); (260343356,14); (260260970,14); (260178589,14); (260096214,14); (260013844,14); (259931480,14); (259849122,14);
(259766769,14); (259684422,14); (259602081,14); (259519745,14); (259437415,14); (259355090,14); (259272771,14); (259190458,14);
(259108151,14); (259025849,14); (258943552,14); (258861262,14); (258778977,14); (258696697,14); (258614423,14); (258532155,14);
(258449892,14); (258367636,14); (258285384,14); (258203139,14); (258120898,14); (258038664,14); (257956435,14); (257874212,14);
(257791994,14); (257709782,14); (257627576,14); (257545375,14); (257463180,14); (257380991,14); (257298807,14); (257216629,14);
(257134456,14); (257052289,14); (256970127,14); (256887972,14); (256805821,14); (256723677,14); (256641538,14); (256559405,14);
(256477277,14); (256395155,14); (256313038,14); (256230927,14); (256148822,14); (256066722,14); (255984628,14); (255902540,14);
(255820457,14); (255738380,14); (255656308,14); (255574242,14); (255492182,14); (255410127,14); (255328077,14); (255246034,14);
(255163996,14); (255081963,14); (254999937,14); (254917915,14); (254835900,14); (254753890,14); (254671885,14); (254589886,14);
(254507893,14); (254425906,14); (254343924,14); (254261947,14); (254179976,14); (254098011,14); (254016051,14); (253934097,14);
(253852149,14); (253770206,14); (253688269,14); (253606337,14); (253524411,14); (253442490,14); (253360576,14); (253278666,14);
(253196762,14); (253114864,14); (253032972,14); (252951085,14); (252869203,14); (252787328,14); (252705457,14); (252623593,14);
(252541734,14); (252459880,14); (252378032,14); (252296190,14); (252214353,14); (252132522,14); (252050697,14); (251968877,14);
(251887062,14); (251805254,14); (251723450,14); (251641653,14); (251559861,14); (251478074,14); (251396293,14); (251314518,14);
(251232748,14); (251150984,14); (251069225,14); (250987472,14); (250905725,14); (250823983,14); (250742246,14); (250660516,14);
(250578790,14); (250497071,14); (250415357,14); (250333648,14); (250251945,14); (250170248,14); (250088556,14); (250006870,14);
(249925189,14); (249843514,14); (249761845,14); (249680181,14); (249598522,14); (249516870,14); (249435222,14); (249353581,14);
(249271944,14); (249190314,14); (249108689,14); (249027069,14); (248945455,14); (248863847,14); (248782244,14); (248700647,14);
(248619055,14); (248537469,14); (248455889,14); (248374314,14); (248292744,14); (248211180,14); (248129622,14); (248048069,14);
(247966522,14); (247884980,14); (247803444,14); (247721914,14); (247640388,14); (247558869,14); (247477355,14); (247395847,14);
(247314344,14); (247232847,14); (247151355,14); (247069869,14); (246988388,14); (246906913,14); (246825443,14); (246743979,14);
(246662521,14); (246581068,14); (246499620,14); (246418179,14); (246336742,14); (246255311,14); (246173886,14); (246092467,14);
(246011052,14); (245929644,14); (245848241,14); (245766843,14); (245685451,14); (245604065,14); (245522684,14); (245441308,14);
(245359939,14); (245278574,14); (245197215,14); (245115862,14); (245034514,14); (244953172,14); (244871836,14); (244790504,14);
(244709179,14); (244627859,14); (244546544,14); (244465235,14); (244383932,14); (244302634,14); (244221341,14); (244140054,14);
(244058773,14); (243977497,14); (243896227,14); (243814962,14); (243733703,14); (243652449,14); (243571201,14); (243489958,14);
(243408721,14); (243327489,14); (243246263,14); (243165042,14); (243083827,14); (243002617,14); (242921413,14); (242840215,14);
(242759022,14); (242677834,14); (242596652,14); (242515475,14); (242434304,14); (242353139,14); (242271979,14); (242190825,14);
(242109676,14); (242028532,14); (241947394,14); (241866262,14); (241785135,14); (241704013,14); (241622898,14); (241541787,14);
(241460682,14); (241379583,14); (241298489,14); (241217401,14); (241136318,14); (241055240,14); (240974169,14); (240893102,14);
(240812041,14); (240730986,14); (240649936,14); (240568892,14); (240487853,14); (240406820,14); (240325792,14); (240244770,14);
(240163753,14); (240082741,14); (240001735,14); (239920735,14); (239839740,14); (239758751,14); (239677767,14); (239596789,14);
(239515816,14); (239434848,14); (239353887,14); (239272930,14); (239191979,14); (239111034,14); (239030094,14); (238949159,14);
(238868230,14); (238787307,14); (238706389,14); (238625477,14); (238544570,14); (238463668,14); (238382772,14); (238301881,14);
(238220996,14); (238140117,14); (238059243,14); (237978374,14); (237897511,14); (237816653,14); (237735801,14); (237654955,14);
(237574113,14); (237493278,14); (237412447,14); (237331623,14); (237250803,14); (237169990,14); (237089181,14); (237008378,14);
(236927581,14); (236846789,14); (236766003,14); (236685222,14); (236604446,14); (236523676,14); (236442912,14); (236362153,14);
(236281399,14); (236200651,14); (236119908,14); (236039171,14); (235958440,14); (235877713,14); (235796993,14); (235716277,14);
(235635567,14); (235554863,14); (235474164,14); (235393471,14); (235312783,14); (235232100,14); (235151423,14); (235070752,14);
(234990085,14); (234909425,14); (234828770,14); (234748120,14); (234667476,14); (234586837,14); (234506203,14); (234425576,14);
(234344953,14); (234264336,14); (234183725,14); (234103119,14); (234022518,14); (233941923,14); (233861333,14); (233780749,14);
(233700170,14); (233619597,14); (233539029,14); (233458466,14); (233377909,14); (233297358,14); (233216812,14); (233136271,14);
(233055736,14); (232975206,14); (232894682,14); (232814163,14); (232733650,14); (232653142,14); (232572639,14); (232492142,14);
(232411651,14); (232331165,14); (232250684,14); (232170209,14); (232089739,14); (232009274,14); (231928815,14); (231848362,14);
(231767914,14); (231687471,14); (231607034,14); (231526602,14); (231446176,14); (231365755,14); (231285340,14); (231204930,14);
(231124525,14); (231044126,14); (230963732,14); (230883344,14); (230802961,14); (230722584,14); (230642212,14); (230561845,14);
(230481484,14); (230401129,14); (230320778,14); (230240434,14); (230160094,14); (230079760,14); (229999432,14); (229919109,14);
(229838791,14); (229758479,14); (229678172,14); (229597871,14); (229517575,14); (229437284,14); (229356999,14); (229276719,14);
(229196445,14); (229116176,14); (229035913,14); (228955655,14); (228875402,14); (228795155,14); (228714913,14); (228634677,14);
(228554446,14); (228474221,14); (228394000,14); (228313786,14); (228233577,14); (228153373,14); (228073174,14); (227992981,14);
(227912794,14); (227832612,14); (227752435,14); (227672264,14); (227592098,14); (227511937,14); (227431782,14); (227351632,14);
(227271488,14); (227191349,14); (227111216,14); (227031088,14); (226950965,14); (226870848,14); (226790736,14); (226710630,14);
(226630529,14); (226550433,14); (226470343,14); (226390258,14); (226310178,14); (226230104,14); (226150036,14); (226069973,14);
(225989915,14); (225909862,14); (225829815,14); (225749774,14); (225669738,14); (225589707,14); (225509681,14); (225429661,14);
(225349647,14); (225269638,14); (225189634,14); (225109635,14); (225029642,14); (224949655,14); (224869672,14); (224789696,14);
(224709724,14); (224629758,14); (224549797,14); (224469842,14); (224389892,14); (224309948,14); (224230009,14); (224150075,14);
(224070147,14); (223990224,14); (223910306,14); (223830394,14); (223750487,14); (223670586,14); (223590690,14); (223510799,14);
(223430914,14); (223351034,14); (223271159,14); (223191290,14); (223111427,14); (223031568,14); (222951715,14); (222871868,14);
(222792025,14); (222712189,14); (222632357,14); (222552531,14); (222472710,14); (222392895,14); (222313085,14); (222233281,14);
(222153481,14); (222073688,14); (221993899,14); (221914116,14); (221834338,14); (221754566,14); (221674799,14); (221595037,14);
(221515281,14); (221435530,14); (221355785,14); (221276045,14); (221196310,14); (221116581,14); (221036857,14); (220957138,14);
(220877425,14); (220797717,14); (220718014,14); (220638317,14); (220558625,14); (220478939,14); (220399258,14); (220319582,14);
(220239912,14); (220160247,14); (220080587,14); (220000933,14); (219921284,14); (219841640,14); (219762002,14); (219682369,14);
(219602742,14); (219523120,14); (219443503,14); (219363891,14); (219284285,14); (219204685,14); (219125089,14); (219045499,14);
(218965915,14); (218886335,14); (218806761,14); (218727193,14); (218647629,14); (218568072,14); (218488519,14); (218408972,14);
(218329430,14); (218249894,14); (218170362,14); (218090837,14); (218011316,14); (217931801,14); (217852291,14); (217772787,14);
(217693288,14); (217613794,14); (217534306,14); (217454823,14); (217375345,14); (217295873,14); (217216406,14); (217136944,14);
(217057488,14); (216978037,14); (216898591,14); (216819151,14); (216739716,14); (216660286,14); (216580862,14); (216501443,14);
(216422029,14); (216342621,14); (216263218,14); (216183820,14); (216104428,14); (216025041,14); (215945659,14); (215866283,14);
(215786912,14); (215707546,14); (215628186,14); (215548831,14); (215469481,14); (215390137,14); (215310798,14); (215231464,14);
(215152136,14); (215072813,14); (214993495,14); (214914183,14); (214834876,14); (214755574,14); (214676278,14); (214596987,14);
(214517701,14); (214438421,14); (214359146,14); (214279876,14); (214200611,14); (214121352,14); (214042098,14); (213962850,14);
(213883607,14); (213804369,14); (213725136,14); (213645909,14); (213566687,14); (213487471,14); (213408259,14); (213329053,14);
(213249853,14); (213170657,14); (213091467,14); (213012283,14); (212933103,14); (212853929,14); (212774761,14); (212695597,14);
(212616439,14); (212537286,14); (212458139,14); (212378996,14); (212299859,14); (212220728,14); (212141602,14); (212062481,14);
(211983365,14); (211904255,14); (211825149,14); (211746050,14); (211666955,14); (211587866,14); (211508782,14); (211429704,14);
(211350630,14); (211271562,14); (211192500,14); (211113442,14); (211034390,14); (210955344,14); (210876302,14); (210797266,14);
(210718235,14); (210639210,14); (210560189,14); (210481174,14); (210402165,14); (210323160,14); (210244161,14); (210165167,14);
(210086179,14); (210007196,14); (209928218,14); (209849245,14); (209770278,14); (209691316,14); (209612359,14); (209533408,14);
(209454461,14); (209375520,14); (209296585,14); (209217655,14); (209138730,14); (209059810,14); (208980895,14); (208901986,14);
(208823082,14); (208744184,14); (208665290,14); (208586402,14); (208507520,14); (208428642,14); (208349770,14); (208270903,14);
(208192041,14); (208113185,14); (208034334,14); (207955488,14); (207876648,14); (207797812,14); (207718982,14); (207640158,14);
(207561338,14); (207482524,14); (207403715,14); (207324912,14); (207246113,14); (207167320,14); (207088533,14); (207009750,14);
(206930973,14); (206852201,14); (206773434,14); (206694673,14); (206615917,14); (206537166,14); (206458420,14); (206379680,14);
(206300945,14); (206222215,14); (206143491,14); (206064771,14); (205986057,14); (205907349,14); (205828645,14); (205749947,14);
(205671254,14); (205592566,14); (205513884,14); (205435207,14); (205356535,14); (205277868,14); (205199207,14); (205120551,14);
(205041900,14); (204963254,14); (204884614,14); (204805979,14); (204727349,14); (204648725,14); (204570105,14); (204491491,14);
(204412883,14); (204334279,14); (204255681,14); (204177088,14); (204098500,14); (204019917,14); (203941340,14); (203862768,14);
(203784201,14); (203705640,14); (203627083,14); (203548532,14); (203469987,14); (203391446,14); (203312911,14); (203234381,14);
(203155856,14); (203077336,14); (202998822,14); (202920313,14); (202841809,14); (202763311,14); (202684817,14); (202606329,14);
(202527847,14); (202449369,14); (202370897,14); (202292429,14); (202213968,14); (202135511,14); (202057060,14); (201978613,14);
(201900173,14); (201821737,14); (201743306,14); (201664881,14); (201586461,14); (201508047,14); (201429637,14); (201351233,14);
(201272834,14); (201194440,14); (201116051,14); (201037668,14); (200959290,14); (200880917,14); (200802549,14); (200724187,14);
(200645830,14); (200567478,14); (200489131,14); (200410790,14); (200332453,14); (200254122,14); (200175797,14); (200097476,14);
(200019161,14); (199940851,14); (199862546,14); (199784246,14); (199705951,14); (199627662,14); (199549378,14); (199471099,14);
(199392826,14); (199314558,14); (199236294,14); (199158036,14); (199079784,14); (199001536,14); (198923294,14); (198845057,14);
(198766825,14); (198688599,14); (198610377,14); (198532161,14); (198453950,14); (198375744,14); (198297544,14); (198219349,14);
(198141158,14); (198062974,14); (197984794,14); (197906619,14); (197828450,14); (197750286,14); (197672127,14); (197593974,14);
(197515825,14); (197437682,14); (197359544,14); (197281411,14); (197203284,14); (197125161,14); (197047044,14); (196968932,14);
(196890825,14); (196812724,14); (196734627,14); (196656536,14); (196578450,14); (196500370,14); (196422294,14); (196344224,14);
(196266159,14); (196188099,14); (196110044,14); (196031994,14); (195953950,14); (195875911,14); (195797877,14); (195719848,14);
(195641825,14); (195563806,14); (195485793,14); (195407785,14); (195329782,14); (195251785,14); (195173792,14); (195095805,14);
(195017823,14); (194939846,14); (194861875,14); (194783908,14); (194705947,14); (194627991,14); (194550040,14); (194472094,14);
(194394154,14); (194316219,14); (194238289,14); (194160364,14); (194082444,14); (194004529,14); (193926620,14); (193848716,14);
(193770817,14); (193692923,14); (193615034,14); (193537151,14); (193459273,14); (193381399,14); (193303532,14); (193225669,14);
(193147811,14); (193069959,14); (192992112,14); (192914270,14); (192836433,14); (192758601,14); (192680775,14); (192602953,14);
(192525137,14); (192447326,14); (192369521,14); (192291720,14); (192213925,14); (192136134,14); (192058349,14); (191980569,14);
(191902795,14); (191825025,14); (191747261,14); (191669501,14); (191591747,14); (191513998,14); (191436255,14); (191358516,14);
(191280783,14); (191203055,14); (191125331,14); (191047614,14); (190969901,14); (190892193,14); (190814491,14); (190736794,14);
(190659102,14); (190581415,14); (190503733,14); (190426056,14); (190348385,14); (190270719,14); (190193058,14); (190115402,14);
(190037751,14); (189960105,14); (189882465,14); (189804830,14); (189727199,14); (189649574,14); (189571955,14); (189494340,14);
(189416730,14); (189339126,14); (189261527,14); (189183933,14); (189106344,14); (189028760,14); (188951181,14); (188873608,14);
(188796040,14); (188718477,14); (188640919,14); (188563366,14); (188485818,14); (188408275,14); (188330738,14); (188253206,14);
(188175679,14); (188098157,14); (188020640,14); (187943128,14); (187865622,14); (187788120,14); (187710624,14); (187633133,14);
(187555647,14); (187478166,14); (187400690,14); (187323220,14); (187245755,14); (187168294,14); (187090839,14); (187013389,14);
(186935944,14); (186858505,14); (186781070,14); (186703641,14); (186626216,14); (186548797,14); (186471383,14); (186393974,14);
(186316571,14); (186239172,14); (186161779,14); (186084390,14); (186007007,14); (185929629,14); (185852256,14); (185774888,14);
(185697525,14); (185620168,14); (185542816,14); (185465468,14); (185388126,14); (185310789,14); (185233457,14); (185156130,14);
(185078809,14); (185001492,14); (184924181,14); (184846874,14); (184769573,14); (184692277,14); (184614986,14); (184537701,14);
(184460420,14); (184383144,14); (184305874,14); (184228609,14); (184151348,14); (184074093,14); (183996843,14); (183919599,14);
(183842359,14); (183765124,14); (183687895,14); (183610671,14); (183533451,14); (183456237,14); (183379028,14); (183301824,14);
(183224625,14); (183147432,14); (183070243,14); (182993060,14); (182915881,14); (182838708,14); (182761540,14); (182684377,14);
(182607219,14); (182530067,14); (182452919,14); (182375776,14); (182298639,14); (182221507,14); (182144379,14); (182067257,14);
(181990140,14); (181913028,14); (181835921,14); (181758820,14); (181681723,14); (181604632,14); (181527545,14); (181450464,14);
(181373388,14); (181296317,14); (181219251,14); (181142190,14); (181065134,14); (180988083,14); (180911038,14); (180833997,14);
(180756962,14); (180679932,14); (180602906,14); (180525886,14); (180448871,14); (180371861,14); (180294857,14); (180217857,14);
(180140862,14); (180063873,14); (179986888,14); (179909909,14); (179832935,14); (179755965,14); (179679001,14); (179602042,14);
(179525089,14); (179448140,14); (179371196,14); (179294257,14); (179217324,14); (179140395,14); (179063472,14); (178986554,14);
(178909641,14); (178832732,14); (178755829,14); (178678932,14); (178602039,14); (178525151,14); (178448268,14); (178371391,14);
(178294518,14); (178217651,14); (178140788,14); (178063931,14); (177987079,14); (177910232,14); (177833390,14); (177756553,14);
(177679721,14); (177602894,14); (177526072,14); (177449256,14); (177372444,14); (177295637,14); (177218836,14); (177142040,14);
(177065248,14); (176988462,14); (176911681,14); (176834905,14); (176758134,14); (176681368,14); (176604607,14); (176527851,14);
(176451101,14); (176374355,14); (176297615,14); (176220879,14); (176144149,14); (176067423,14); (175990703,14); (175913988,14);
(175837278,14); (175760572,14); (175683872,14); (175607177,14); (175530488,14); (175453803,14); (175377123,14); (175300448,14);
(175223778,14); (175147114,14); (175070454,14); (174993800,14); (174917150,14); (174840506,14); (174763867,14); (174687233,14);
(174610603,14); (174533979,14); (174457360,14); (174380746,14); (174304137,14); (174227533,14); (174150934,14); (174074341,14);
(173997752,14); (173921168,14); (173844590,14); (173768016,14); (173691447,14); (173614884,14); (173538326,14); (173461772,14);
(173385224,14); (173308681,14); (173232142,14); (173155609,14); (173079081,14); (173002558,14); (172926040,14); (172849527,14);
(172773019,14); (172696516,14); (172620018,14); (172543525,14); (172467038,14); (172390555,14); (172314077,14); (172237604,14);
(172161137,14); (172084674,14); (172008217,14); (171931764,14); (171855317,14); (171778874,14); (171702437,14); (171626005,14);
(171549577,14); (171473155,14); (171396738,14); (171320326,14); (171243919,14); (171167517,14); (171091119,14); (171014727,14);
(170938340,14); (170861958,14); (170785582,14); (170709210,14); (170632843,14); (170556481,14); (170480124,14); (170403772,14);
(170327426,14); (170251084,14); (170174747,14); (170098415,14); (170022089,14); (169945767,14); (169869451,14); (169793139,14);
(169716833,14); (169640531,14); (169564235,14); (169487943,14); (169411657,14); (169335375,14); (169259099,14); (169182827,14);
(169106561,14); (169030300,14); (168954044,14); (168877792,14); (168801546,14); (168725305,14); (168649069,14); (168572837,14);
(168496611,14); (168420390,14); (168344174,14); (168267963,14); (168191757,14); (168115555,14); (168039359,14); (167963168,14);
(167886982,14); (167810801,14); (167734625,14); (167658454,14); (167582288,14); (167506127,14); (167429971,14); (167353820,14);
(167277674,14); (167201533,14); (167125397,14); (167049266,14); (166973140,14); (166897019,14); (166820903,14); (166744793,14);
(166668687,14); (166592586,14); (166516490,14); (166440399,14); (166364313,14); (166288232,14); (166212156,14); (166136085,14);
(166060020,14); (165983959,14); (165907903,14); (165831852,14); (165755806,14); (165679765,14); (165603729,14); (165527698,14);
(165451673,14); (165375652,14); (165299636,14); (165223625,14); (165147619,14); (165071618,14); (164995622,14); (164919631,14);
(164843645,14); (164767664,14); (164691689,14); (164615718,14); (164539752,14); (164463791,14); (164387835,14); (164311884,14);
(164235938,14); (164159997,14); (164084061,14); (164008130,14); (163932204,14); (163856283,14); (163780367,14); (163704456,14);
(163628550,14); (163552649,14); (163476752,14); (163400861,14); (163324975,14); (163249094,14); (163173218,14); (163097347,14);
(163021480,14); (162945619,14); (162869763,14); (162793912,14); (162718065,14); (162642224,14); (162566388,14); (162490557,14);
(162414730,14); (162338909,14); (162263092,14); (162187281,14); (162111475,14); (162035673,14); (161959877,14); (161884085,14);
(161808298,14); (161732517,14); (161656740,14); (161580969,14); (161505202,14); (161429440,14); (161353684,14); (161277932,14);
(161202185,14); (161126443,14); (161050706,14); (160974975,14); (160899248,14); (160823526,14); (160747809,14); (160672097,14);
(160596390,14); (160520688,14); (160444991,14); (160369299,14); (160293611,14); (160217929,14); (160142252,14); (160066580,14);
(159990912,14); (159915250,14); (159839593,14); (159763940,14); (159688293,14); (159612650,14); (159537013,14); (159461380,14);
(159385753,14); (159310130,14); (159234512,14); (159158899,14); (159083292,14); (159007689,14); (158932091,14); (158856498,14);
(158780910,14); (158705327,14); (158629749,14); (158554176,14); (158478608,14); (158403044,14); (158327486,14); (158251933,14);
(158176385,14); (158100841,14); (158025303,14); (157949769,14); (157874241,14); (157798717,14); (157723198,14); (157647685,14);
(157572176,14); (157496672,14); (157421173,14); (157345679,14); (157270190,14); (157194706,14); (157119227,14); (157043753,14);
(156968284,14); (156892820,14); (156817360,14); (156741906,14); (156666457,14); (156591012,14); (156515573,14); (156440138,14);
(156364708,14); (156289284,14); (156213864,14); (156138449,14); (156063039,14); (155987634,14); (155912234,14); (155836839,14);
(155761449,14); (155686063,14); (155610683,14); (155535308,14); (155459937,14); (155384572,14); (155309211,14); (155233856,14);
(155158505,14); (155083159,14); (155007818,14); (154932482,14); (154857151,14); (154781825,14); (154706504,14); (154631188,14);
(154555877,14); (154480570,14); (154405269,14); (154329973,14); (154254681,14); (154179394,14); (154104113,14); (154028836,14);
(153953564,14); (153878297,14); (153803035,14); (153727778,14); (153652526,14); (153577278,14); (153502036,14); (153426799,14);
(153351566,14); (153276339,14); (153201116,14); (153125898,14); (153050685,14); (152975478,14); (152900275,14); (152825077,14);
(152749883,14); (152674695,14); (152599512,14); (152524333,14); (152449160,14); (152373991,14); (152298828,14); (152223669,14);
(152148515,14); (152073366,14); (151998222,14); (151923083,14); (151847949,14); (151772820,14); (151697695,14); (151622576,14);
(151547461,14); (151472352,14); (151397247,14); (151322147,14); (151247052,14); (151171962,14); (151096877,14); (151021797,14);
(150946722,14); (150871651,14); (150796586,14); (150721525,14); (150646469,14); (150571419,14); (150496373,14); (150421332,14);
(150346296,14); (150271264,14); (150196238,14); (150121217,14); (150046200,14); (149971189,14); (149896182,14); (149821180,14);
(149746183,14); (149671191,14); (149596204,14); (149521222,14); (149446245,14); (149371272,14); (149296305,14); (149221342,14);
(149146384,14); (149071432,14); (148996484,14); (148921541,14); (148846602,14); (148771669,14); (148696741,14); (148621817,14);
(148546899,14); (148471985,14); (148397076,14); (148322172,14); (148247273,14); (148172379,14); (148097490,14); (148022605,14);
(147947726,14); (147872851,14); (147797981,14); (147723117,14); (147648257,14); (147573401,14); (147498551,14); (147423706,14);
(147348865,14); (147274030,14); (147199199,14); (147124373,14); (147049553,14); (146974736,14); (146899925,14); (146825119,14);
(146750318,14); (146675521,14); (146600729,14); (146525943,14); (146451161,14); (146376384,14); (146301612,14); (146226844,14);
(146152082,14); (146077324,14); (146002572,14); (145927824,14); (145853081,14); (145778343,14); (145703610,14); (145628882,14);
(145554158,14); (145479440,14); (145404726,14); (145330017,14); (145255313,14); (145180614,14); (145105920,14); (145031230,14);
(144956546,14); (144881866,14); (144807192,14); (144732522,14); (144657857,14); (144583197,14); (144508541,14); (144433891,14);
(144359245,14); (144284605,14); (144209969,14); (144135338,14); (144060712,14); (143986090,14); (143911474,14); (143836862,14);
(143762256,14); (143687654,14); (143613057,14); (143538465,14); (143463877,14); (143389295,14); (143314718,14); (143240145,14)].

(** entries 30720..32767 *)
Definition RECIPROCAL_15 : list (Z * Z) := [
(143165577,14); (143091014,14); (143016456,14); (142941903,14); (142867354,14); (142792811,14); (142718272,14); (142643738,14);
(142569209,14); (142494685,14); (142420166,14); (142345651,14); (142271142,14); (142196637,14); (142122137,14); (142047642,14);
(141973152,14); (141898666,14); (141824186,14); (141749710,14); (141675239,14); (141600773,14); (141526312,14); (141451856,14);
(141377404,14); (141302958,14); (141228516,14); (141154079,14); (141079647,14); (141005220,14); (140930797,14); (140856380,14);
(140781967,14); (140707559,14); (140633156,14); (140558758,14); (140484365,14); (140409976,14); (140335592,14); (140261213,14);
(140186839,14); (140112470,14); (140038106,14); (139963746,14); (139889392,14); (139815042,14); (139740697,14); (139666357,14);
(139592021,14); (139517691,14); (139443365,14); (139369044,14); (139294728,14); (139220417,14); (139146111,14); (139071809,14);
(138997512,14); (138923221,14); (138848933,14); (138774651,14); (138700374,14); (138626101,14); (138551834,14); (138477571,14);
(138403313,14); (138329059,14); (138254811,14); (138180567,14); (138106328,14); (138032094,14); (137957865,14); (137883641,14);
(137809421,14); (137735207,14); (137660997,14); (137586792,14); (137512592,14); (137438396,14); (137364206,14); (137290020,14);
(137215839,14); (137141663,14); (137067491,14); (136993325,14); (136919163,14); (136845006,14); (136770854,14); (136696707,14);
(136622564,14); (136548427,14); (136474294,14); (136400166,14); (136326043,14); (136251924,14); (136177811,14); (136103702,14);
(136029598,14); (135955499,14); (135881405,14); (135807315,14); (135733230,14); (135659151,14); (135585075,14); (135511005,14);
(135436940,14); (135362879,14); (135288823,14); (135214772,14); (135140726,14); (135066684,14); (134992648,14); (134918616,14);
(134844589,14); (134770566,14); (134696549,14); (134622536,14); (134548528,14); (134474525,14); (134400527,14); (134326534,14);
(134252545,14); (134178561,14); (134104582,14); (134030608,14); (133956638,14); (133882674,14); (133808714,14); (133734759,14);
(133660808,14); (133586863,14); (133512922,14); (133438986,14); (133365055,14); (133291129,14); (133217207,14); (133143291,14);
(133069379,14); (132995472,14); (132921569,14); (132847672,14); (132773779,14); (132699891,14); (132626008,14); (132552129,14);
(132478256,14); (132404387,14); (132330523,14); (132256663,14); (132182809,14); (132108959,14); (132035114,14); (131961274,14);
(131887439,14); (131813608,14); (131739782,14); (131665961,14); (131592145,14); (131518334,14); (131444527,14); (131370725,14);
(131296928,14); (131223136,14); (131149348,14); (131075566,14); (131001788,14); (130928014,14); (130854246,14); (130780482,14);
(130706723,14); (130632969,14); (130559220,14); (130485475,14); (130411736,14); (130338001,14); (130264270,14); (130190545,14);
(130116824,14); (130043108,14); (129969397,14); (129895691,14); (129821989,14); (129748292,14); (129674600,14); (129600913,14);
(129527231,14); (129453553,14); (129379880,14); (129306212,14); (129232548,14); (129158890,14); (129085236,14); (129011586,14);
(128937942,14); (128864302,14); (128790668,14); (128717038,14); (128643412,14); (128569792,14); (128496176,14); (128422565,14);
(128348959,14); (128275357,14); (128201760,14); (128128168,14); (128054581,14); (127980999,14); (127907421,14); (127833848,14);
(127760280,14); (127686716,14); (127613157,14); (127539604,14); (127466054,14); (127392510,14); (127318970,14); (127245435,14);
(127171905,14); (127098380,14); (127024859,14); (126951343,14); (126877832,14); (126804326,14); (126730824,14); (126657327,14);
(126583835,14); (126510348,14); (126436865,14); (126363387,14); (126289914,14); (126216445,14); (126142982,14); (126069523,14);
(125996069,14); (125922619,14); (125849175,14); (125775735,14); (125702300,14); (125628869,14); (125555443,14); (125482023,14);
(125408606,14); (125335195,14); (125261788,14); (125188386,14); (125114989,14); (125041596,14); (124968209,14); (124894826,14);
(124821447,14); (124748074,14); (124674705,14); (124601341,14); (124527982,14); (124454627,14); (124381277,14); (124307932,14);
(124234592,14); (124161256,14); (124087925,14); (124014599,14); (123941278,14); (123867961,14); (123794649,14); (123721342,14);
(123648039,14); (123574741,14); (123501448,14); (123428160,14); (123354876,14); (123281598,14); (123208323,14); (123135054,14);
(123061789,14); (122988529,14); (122915274,14); (122842024,14); (122768778,14); (122695537,14); (122622301,14); (122549069,14);
(122475842,14); (122402620,14); (122329403,14); (122256190,14); (122182982,14); (122109779,14); (122036580,14); (121963386,14);
(121890197,14); (121817013,14); (121743833,14); (121670658,14); (121597488,14); (121524323,14); (121451162,14); (121378006,14);
(121304854,14); (121231708,14); (121158566,14); (121085429,14); (121012296,14); (120939169,14); (120866046,14); (120792927,14);
(120719814,14); (120646705,14); (120573601,14); (120500501,14); (120427406,14); (120354316,14); (120281231,14); (120208150,14);
(120135074,14); (120062003,14); (119988937,14); (119915875,14); (119842818,14); (119769765,14); (119696718,14); (119623675,14);
(119550637,14); (119477603,14); (119404574,14); (119331550,14); (119258531,14); (119185516,14); (119112506,14); (119039501,14);
(118966500,14); (118893504,14); (118820513,14); (118747526,14); (118674544,14); (118601567,14); (118528595,14); (118455627,14);
(118382664,14); (118309706,14); (118236752,14); (118163803,14); (118090859,14); (118017920,14); (117944985,14); (117872055,14);
(117799129,14); (117726209,14); (117653292,14); (117580381,14); (117507474,14); (117434573,14); (117361675,14); (117288783,14);
(117215895,14); (117143012,14); (117070133,14); (116997259,14); (116924390,14); (116851526,14); (116778666,14); (116705811,14);
(116632961,14); (116560115,14); (116487274,14); (116414438,14); (116341606,14); (116268779,14); (116195957,14); (116123139,14);
(116050326,14); (115977518,14); (115904715,14); (115831916,14); (115759122,14); (115686332,14); (115613547,14); (115540767,14);
(115467992,14); (115395221,14); (115322455,14); (115249694,14); (115176937,14); (115104185,14); (115031438,14); (114958695,14);
(114885957,14); (114813224,14); (114740495,14); (114667771,14); (114595052,14); (114522337,14); (114449627,14); (114376922,14);
(114304221,14); (114231526,14); (114158834,14); (114086148,14); (114013466,14); (113940789,14); (113868116,14); (113795448,14);
(113722785,14); (113650126,14); (113577473,14); (113504823,14); (113432179,14); (113359539,14); (113286904,14); (113214273,14);
(113141647,14); (113069026,14); (112996410,14); (112923798,14); (112851191,14); (112778588,14); (112705990,14); (112633397,14);
(112560808,14); (112488224,14); (112415645,14); (112343071,14); (112270501,14); (112197936,14); (112125375,14); (112052819,14);
(111980268,14); (111907721,14); (111835179,14); (111762642,14); (111690109,14); (111617581,14); (111545058,14); (111472539,14);
(111400025,14); (111327516,14); (111255011,14); (111182511,14); (111110016,14); (111037525,14); (110965039,14); (110892558,14);
(110820081,14); (110747609,14); (110675141,14); (110602679,14); (110530220,14); (110457767,14); (110385318,14); (110312874,14);
(110240434,14); (110167999,14); (110095569,14); (110023143,14); (109950722,14); (109878306,14); (109805894,14); (109733487,14);
(109661085,14); (109588687,14); (109516294,14); (109443906,14); (109371522,14); (109299143,14); (109226768,14); (109154398,14);
(109082033,14); (109009672,14); (108937316,14); (108864965,14); (108792618,14); (108720276,14); (108647939,14); (108575606,14);
(108503278,14); (108430954,14); (108358636,14); (108286321,14); (108214012,14); (108141707,14); (108069406,14); (107997111,14);
(107924820,14); (107852533,14); (107780252,14); (107707974,14); (107635702,14); (107563434,14); (107491171,14); (107418912,14);
(107346658,14); (107274409,14); (107202164,14); (107129924,14); (107057688,14); (106985458,14); (106913231,14); (106841010,14);
(106768793,14); (106696581,14); (106624373,14); (106552170,14); (106479971,14); (106407777,14); (106335588,14); (106263404,14);
(106191224,14); (106119048,14); (106046878,14); (105974712,14); (105902550,14); (105830393,14); (105758241,14); (105686093,14);
(105613950,14); (105541812,14); (105469678,14); (105397549,14); (105325425,14); (105253305,14); (105181189,14); (105109079,14);
(105036973,14); (104964871,14); (104892775,14); (104820682,14); (104748595,14); (104676512,14); (104604433,14); (104532360,14);
(104460291,14); (104388226,14); (104316166,14); (104244111,14); (104172060,14); (104100014,14); (104027973,14); (103955936,14);
(103883904,14); (103811876,14); (103739853,14); (103667835,14); (103595821,14); (103523812,14); (103451807,14); (103379807,14);
(103307812,14); (103235821,14); (103163835,14); (103091853,14); (103019876,14); (102947904,14); (102875936,14); (102803973,14);
(102732014,14); (102660060,14); (102588111,14); (102516166,14); (102444226,14); (102372291,14); (102300360,14); (102228433,14);
(102156512,14); (102084594,14); (102012682,14); (101940774,14); (101868871,14); (101796972,14); (101725078,14); (101653188,14);
(101581303,14); (101509423,14); (101437547,14); (101365676,14); (101293809,14); (101221947,14); (101150090,14); (101078237,14);
(101006389,14); (100934545,14); (100862706,14); (100790872,14); (100719042,14); (100647217,14); (100575396,14); (100503580,14);
(100431768,14); (100359961,14); (100288159,14); (100216361,14); (100144568,14); (100072780,14); (100000996,14); (99929216,14);
(99857441,14); (99785671,14); (99713906,14); (99642145,14); (99570388,14); (99498636,14); (99426889,14); (99355146,14);
(99283408,14); (99211674,14); (99139945,14); (99068221,14); (98996501,14); (98924786,14); (98853075,14); (98781369,14);
(98709668,14); (98637971,14); (98566278,14); (98494591,14); (98422907,14); (98351229,14); (98279555,14); (98207885,14);
(98136220,14); (98064560,14); (97992904,14); (97921253,14); (97849606,14); (97777964,14); (97706327,14); (97634694,14);
(97563066,14); (97491442,14); (97419823,14); (97348208,14); (97276598,14); (97204993,14); (97133392,14); (97061795,14);
(96990204,14); (96918616,14); (96847034,14); (96775456,14); (96703882,14); (96632313,14); (96560749,14); (96489189,14);
(96417634,14); (96346083,14); (96274537,14); (96202995,14); (96131458,14); (96059926,14); (95988398,14); (95916875,14);
(95845356,14); (95773842,14); (95702332,14); (95630827,14); (95559326,14); (95487830,14); (95416339,14); (95344852,14);
(95273370,14); (95201892,14); (95130419,14); (95058950,14); (94987486,14); (94916027,14); (94844572,14); (94773121,14);
(94701676,14); (94630234,14); (94558797,14); (94487365,14); (94415938,14); (94344515,14); (94273096,14); (94201682,14);
(94130273,14); (94058868,14); (93987467,14); (93916071,14); (93844680,14); (93773294,14); (93701911,14); (93630534,14);
(93559161,14); (93487792,14); (93416428,14); (93345069,14); (93273714,14); (93202364,14); (93131018,14); (93059677,14);
(92988340,14); (92917008,14); (92845680,14); (92774357,14); (92703038,14); (92631724,14); (92560415,14); (92489110,14);
(92417810,14); (92346514,14); (92275223,14); (92203936,14); (92132654,14); (92061376,14); (91990103,14); (91918834,14);
(91847570,14); (91776310,14); (91705055,14); (91633805,14); (91562559,14); (91491318,14); (91420081,14); (91348848,14);
(91277621,14); (91206397,14); (91135179,14); (91063964,14); (90992755,14); (90921549,14); (90850349,14); (90779153,14);
(90707961,14); (90636774,14); (90565592,14); (90494414,14); (90423240,14); (90352071,14); (90280907,14); (90209747,14);
(90138592,14); (90067441,14); (89996295,14); (89925153,14); (89854016,14); (89782883,14); (89711755,14); (89640631,14);
(89569512,14); (89498397,14); (89427287,14); (89356181,14); (89285080,14); (89213984,14); (89142892,14); (89071804,14);
(89000721,14); (88929643,14); (88858569,14); (88787499,14); (88716434,14); (88645374,14); (88574318,14); (88503267,14);
(88432220,14); (88361178,14); (88290140,14); (88219106,14); (88148078,14); (88077053,14); (88006033,14); (87935018,14);
(87864007,14); (87793001,14); (87721999,14); (87651002,14); (87580010,14); (87509021,14); (87438038,14); (87367058,14);
(87296084,14); (87225114,14); (87154148,14); (87083187,14); (87012230,14); (86941278,14); (86870330,14); (86799387,14);
(86728449,14); (86657514,14); (86586585,14); (86515660,14); (86444739,14); (86373823,14); (86302911,14); (86232004,14);
(86161102,14); (86090204,14); (86019310,14); (85948421,14); (85877536,14); (85806656,14); (85735781,14); (85664909,14);
(85594043,14); (85523181,14); (85452323,14); (85381470,14); (85310621,14); (85239777,14); (85168938,14); (85098102,14);
(85027272,14); (84956446,14); (84885624,14); (84814807,14); (84743994,14); (84673186,14); (84602382,14); (84531583,14);
(84460788,14); (84389998,14); (84319213,14); (84248431,14); (84177655,14); (84106882,14); (84036115,14); (83965351,14);
(83894593,14); (83823838,14); (83753088,14); (83682343,14); (83611602,14); (83540866,14); (83470134,14); (83399407,14);
(83328684,14); (83257965,14); (83187251,14); (83116542,14); (83045837,14); (82975137,14); (82904441,14); (82833749,14);
(82763062,14); (82692379,14); (82621701,14); (82551028,14); (82480359,14); (82409694,14); (82339034,14); (82268378,14);
(82197727,14); (82127080,14); (82056438,14); (81985800,14); (81915167,14); (81844538,14); (81773914,14); (81703294,14);
(81632678,14); (81562068,14); (81491461,14); (81420859,14); (81350262,14); (81279669,14); (81209080,14); (81138496,14);
(81067916,14); (80997341,14); (80926770,14); (80856204,14); (80785642,14); (80715085,14); (80644532,14); (80573984,14);
(80503440,14); (80432901,14); (80362366,14); (80291835,14); (80221309,14); (80150788,14); (80080271,14); (80009758,14);
(79939250,14); (79868746,14); (79798247,14); (79727752,14); (79657262,14); (79586776,14); (79516295,14); (79445818,14);
(79375345,14); (79304877,14); (79234414,14); (79163955,14); (79093500,14); (79023050,14); (78952604,14); (78882163,14);
(78811726,14); (78741294,14); (78670866,14); (78600443,14); (78530024,14); (78459609,14); (78389199,14); (78318794,14);
(78248393,14); (78177996,14); (78107604,14); (78037216,14); (77966833,14); (77896454,14); (77826079,14); (77755709,14);
(77685344,14); (77614983,14); (77544626,14); (77474274,14); (77403926,14); (77333583,14); (77263244,14); (77192910,14);
(77122580,14); (77052254,14); (76981933,14); (76911617,14); (76841304,14); (76770997,14); (76700693,14); (76630395,14);
(76560100,14); (76489810,14); (76419525,14); (76349244,14); (76278967,14); (76208695,14); (76138427,14); (76068164,14);
(75997905,14); (75927651,14); (75857401,14); (75787155,14); (75716914,14); (75646678,14); (75576445,14); (75506218,14);
(75435994,14); (75365775,14); (75295561,14); (75225351,14); (75155145,14); (75084944,14); (75014747,14); (74944555,14);
(74874367,14); (74804184,14); (74734005,14); (74663830,14); (74593660,14); (74523494,14); (74453333,14); (74383176,14);
(74313024,14); (74242876,14); (74172732,14); (74102593,14); (74032459,14); (73962328,14); (73892203,14); (73822081,14);
(73751964,14); (73681852,14); (73611744,14); (73541640,14); (73471541,14); (73401446,14); (73331355,14); (73261269,14);
(73191188,14); (73121111,14); (73051038,14); (72980970,14); (72910906,14); (72840846,14); (72770791,14); (72700741,14);
(72630694,14); (72560653,14); (72490615,14); (72420582,14); (72350554,14); (72280530,14); (72210510,14); (72140495,14);
(72070484,14); (72000477,14); (71930475,14); (71860478,14); (71790485,14); (71720496,14); (71650511,14); (71580531,14);
(71510556,14); (71440585,14); (71370618,14); (71300656,14); (71230698,14); (71160744,14); (71090795,14); (71020851,14);
(70950910,14); (70880975,14); (70811043,14); (70741116,14); (70671194,14); (70601275,14); (70531362,14); (70461452,14);
(70391547,14); (70321647,14); (70251750,14); (70181859,14); (70111971,14); (70042088,14); (69972210,14); (69902336,14);
(69832466,14); (69762601,14); (69692740,14); (69622883,14); (69553031,14); (69483183,14); (69413340,14); (69343501,14);
(69273667,14); (69203836,14); (69134011,14); (69064189,14); (68994372,14); (68924560,14); (68854752,14); (68784948,14);
(68715149,14); (68645354,14); (68575563,14); (68505777,14); (68435995,14); (68366218,14); (68296445,14); (68226676,14);
(68156912,14); (68087152,14); (68017397,14); (67947646,14); (67877899,14); (67808157,14); (67738419,14); (67668686,14);
(67598957,14); (67529232,14); (67459512,14); (67389796,14); (67320085,14); (67250378,14); (67180675,14); (67110977,14);
(67041283,14); (66971593,14); (66901908,14); (66832227,14); (66762551,14); (66692879,14); (66623211,14); (66553548,14);
(66483889,14); (66414234,14); (66344584,14); (66274939,14); (66205297,14); (66135660,14); (66066028,14); (65996400,14);
(65926776,14); (65857156,14); (65787541,14); (65717931,14); (65648324,14); (65578722,14); (65509125,14); (65439532,14);
(65369943,14); (65300359,14); (65230779,14); (65161203,14); (65091632,14); (65022065,14); (64952502,14); (64882944,14);
(64813390,14); (64743841,14); (64674296,14); (64604755,14); (64535219,14); (64465687,14); (64396159,14); (64326636,14);
(64257117,14); (64187603,14); (64118093,14); (64048587,14); (63979086,14); (63909589,14); (63840096,14); (63770608,14);
(63701124,14); (63631645,14); (63562170,14); (63492699,14); (63423233,14); (63353771,14); (63284313,14); (63214860,14);
(63145411,14); (63075966,14); (63006526,14); (62937090,14); (62867658,14); (62798231,14); (62728809,14); (62659390,14);
(62589976,14); (62520566,14); (62451161,14); (62381760,14); (62312364,14); (62242971,14); (62173583,14); (62104200,14);
(62034821,14); (61965446,14); (61896076,14); (61826709,14); (61757348,14); (61687990,14); (61618637,14); (61549289,14);
(61479944,14); (61410604,14); (61341269,14); (61271937,14); (61202610,14); (61133288,14); (61063970,14); (60994656,14);
(60925346,14); (60856041,14); (60786740,14); (60717444,14); (60648152,14); (60578864,14); (60509581,14); (60440301,14);
(60371027,14); (60301756,14); (60232490,14); (60163229,14); (60093971,14); (60024718,14); (59955470,14); (59886225,14);
(59816985,14); (59747750,14); (59678519,14); (59609292,14); (59540069,14); (59470851,14); (59401637,14); (59332427,14);
(59263222,14); (59194021,14); (59124825,14); (59055632,14); (58986445,14); (58917261,14); (58848082,14); (58778907,14);
(58709737,14); (58640570,14); (58571409,14); (58502251,14); (58433098,14); (58363949,14); (58294805,14); (58225664,14);
(58156529,14); (58087397,14); (58018270,14); (57949147,14); (57880029,14); (57810914,14); (57741805,14); (57672699,14);
(57603598,14); (57534501,14); (57465409,14); (57396320,14); (57327237,14); (57258157,14); (57189082,14); (57120011,14);
(57050945,14); (56981882,14); (56912824,14); (56843771,14); (56774722,14); (56705677,14); (56636636,14); (56567600,14);
(56498568,14); (56429540,14); (56360517,14); (56291498,14); (56222484,14); (56153473,14); (56084467,14); (56015466,14);
(55946468,14); (55877475,14); (55808487,14); (55739502,14); (55670522,14); (55601546,14); (55532575,14); (55463608,14);
(55394645,14); (55325687,14); (55256732,14); (55187783,14); (55118837,14); (55049896,14); (54980959,14); (54912026,14);
(54843098,14); (54774174,14); (54705255,14); (54636339,14); (54567428,14); (54498522,14); (54429619,14); (54360721,14);
(54291827,14); (54222938,14); (54154053,14); (54085172,14); (54016295,14); (53947423,14); (53878555,14); (53809692,14);
(53740833,14); (53671978,14); (53603127,14); (53534281,14); (53465439,14); (53396601,14); (53327767,14); (53258938,14);
(53190113,14); (53121293,14); (53052477,14); (52983665,14); (52914857,14); (52846054,14); (52777255,14); (52708460,14);
(52639670,14); (52570884,14); (52502102,14); (52433324,14); (52364551,14); (52295782,14); (52227018,14); (52158257,14);
(52089501,14); (52020750,14); (51952002,14); (51883259,14); (51814520,14); (51745786,14); (51677056,14); (51608330,14);
(51539608,14); (51470891,14); (51402178,14); (51333469,14); (51264765,14); (51196064,14); (51127368,14); (51058677,14);
(50989990,14); (50921307,14); (50852628,14); (50783954,14); (50715283,14); (50646618,14); (50577956,14); (50509299,14);
(50440646,14); (50371997,14); (50303353,14); (50234713,14); (50166077,14); (50097445,14); (50028818,14); (49960195,14);
(49891577,14); (49822962,14); (49754352,14); (49685746,14); (49617145,14); (49548548,14); (49479955,14); (49411366,14);
(49342782,14); (49274202,14); (49205626,14); (49137054,14); (49068487,14); (48999924,14); (48931365,14); (48862811,14);
(48794261,14); (48725715,14); (48657173,14); (48588636,14); (48520103,14); (48451574,14); (48383050,14); (48314529,14);
(48246014,14); (48177502,14); (48108995,14); (48040491,14); (47971993,14); (47903498,14); (47835008,14); (47766522,14);
(47698040,14); (47629563,14); (47561089,14); (47492621,14); (47424156,14); (47355696,14); (47287239,14); (47218788,14);
(47150340,14); (47081897,14); (47013458,14); (46945023,14); (46876593,14); (46808166,14); (46739744,14); (46671327,14);
(46602913,14); (46534504,14); (46466099,14); (46397699,14); (46329302,14); (46260910,14); (46192522,14); (46124139,14);
(46055760,14); (45987385,14); (45919014,14); (45850647,14); (45782285,14); (45713927,14); (45645573,14); (45577224,14);
(45508879,14); (45440538,14); (45372201,14); (45303869,14); (45235540,14); (45167216,14); (45098897,14); (45030581,14);
(44962270,14); (44893963,14); (44825661,14); (44757362,14); (44689068,14); (44620778,14); (44552493,14); (44484212,14);
(44415934,14); (44347662,14); (44279393,14); (44211129,14); (44142869,14); (44074613,14); (44006361,14); (43938114,14);
(43869871,14); (43801632,14); (43733397,14); (43665167,14); (43596941,14); (43528719,14); (43460502,14); (43392288,14);
(43324079,14); (43255874,14); (43187674,14); (43119477,14); (43051285,14); (42983097,14); (42914914,14); (42846734,14);
(42778559,14); (42710388,14); (42642222,14); (42574059,14); (42505901,14); (42437747,14); (42369598,14); (42301452,14);
(42233311,14); (42165174,14); (42097041,14); (42028913,14); (41960789,14); (41892669,14); (41824553,14); (41756441,14);
(41688334,14); (41620231,14); (41552132,14); (41484038,14); (41415947,14); (41347861,14); (41279779,14); (41211702,14);
(41143628,14); (41075559,14); (41007494,14); (40939434,14); (40871377,14); (40803325,14); (40735277,14); (40667233,14);
(40599194,14); (40531159,14); (40463128,14); (40395101,14); (40327078,14); (40259060,14); (40191046,14); (40123036,14);
(40055030,14); (39987029,14); (39919031,14); (39851038,14); (39783050,14); (39715065,14); (39647085,14); (39579109,14);
(39511137,14); (39443169,14); (39375206,14); (39307246,14); (39239292,14); (39171341,14); (39103394,14); (39035452,14);
(38967514,14); (38899580,14); (38831650,14); (38763725,14); (38695804,14); (38627887,14); (38559974,14); (38492066,14);
(38424161,14); (38356261,14); (38288365,14); (38220474,14); (38152586,14); (38084703,14); (38016824,14); (37948949,14);
(37881079,14); (37813212,14); (37745350,14); (37677492,14); (37609638,14); (37541789,14); (37473944,14); (37406102,14);
(37338266,14); (37270433,14); (37202605,14); (37134780,14); (37066960,14); (36999144,14); (36931333,14); (36863525,14);
(36795722,14); (36727923,14); (36660129,14); (36592338,14); (36524552,14); (36456770,14); (36388992,14); (36321218,14);
(36253448,14); (36185683,14); (36117922,14); (36050165,14); (35982412,14); (35914664,14); (35846920,14); (35779180,14);
(35711444,14); (35643712,14); (35575984,14); (35508261,14); (35440542,14); (35372827,14); (35305117,14); (35237410,14);
(35169708,14); (35102010,14); (35034316,14); (34966626,14); (34898941,14); (34831260,14); (34763582,14); (34695910,14);
(34628241,14); (34560576,14); (34492916,14); (34425260,14); (34357608,14); (34289960,14); (34222317,14); (34154678,14);
(34087043,14); (34019412,14); (33951785,14); (33884162,14); (33816544,14); (33748930,14); (33681320,14); (33613714,14);
(33546113,14); (33478515,14); (33410922,14); (33343333,14); (33275748,14); (33208167,14); (33140591,14); (33073019,14);
(33005451,14); (32937887,14); (32870327,14); (32802772,14); (32735220,14); (32667673,14); (32600130,14); (32532591,14);
(32465057,14); (32397526,14); (32330000,14); (32262478,14); (32194960,14); (32127447,14); (32059937,14); (31992432,14);
(31924931,14); (31857434,14); (31789941,14); (31722453,14); (31654968,14); (31587488,14); (31520012,14); (31452540,14);
(31385072,14); (31317609,14); (31250150,14); (31182694,14); (31115243,14); (31047797,14); (30980354,14); (30912916,14);
(30845481,14); (30778051,14); (30710625,14); (30643204,14); (30575786,14); (30508373,14); (30440963,14); (30373558,14);
(30306157,14); (30238761,14); (30171368,14); (30103980,14); (30036596,14); (29969216,14); (29901840,14); (29834468,14);
(29767101,14); (29699737,14); (29632378,14); (29565023,14); (29497672,14); (29430326,14); (29362983,14); (29295645,14);
(29228310,14); (29160980,14); (29093655,14); (29026333,14); (28959015,14); (28891702,14); (28824393,14); (28757088,14);
(28689787,14); (28622490,14); (28555198,14); (28487909,14); (28420625,14); (28353345,14); (28286069,14); (28218797,14);
(28151530,14); (28084266,14); (28017007,14); (27949752,14); (27882501,14); (27815254,14); (27748012,14); (27680773,14);
(27613539,14); (27546309,14); (27479083,14); (27411861,14); (27344643,14); (27277430,14); (27210220,14); (27143015,14);
(27075814,14); (27008617,14); (26941424,14); (26874236,14); (26807051,14); (26739871,14); (26672695,14); (26605523,14);
(26538355,14); (26471191,14); (26404032,14); (26336876,14); (26269725,14); (26202578,14); (26135435,14); (26068296,14);
(26001162,14); (25934031,14); (25866905,14); (25799782,14); (25732664,14); (25665550,14); (25598441,14); (25531335,14);
(25464233,14); (25397136,14); (25330043,14); (25262954,14); (25195869,14); (25128788,14); (25061711,14); (24994639,14);
(24927571,14); (24860506,14); (24793446,14); (24726390,14); (24659339,14); (24592291,14); (24525247,14); (24458208,14);
(24391173,14); (24324142,14); (24257115,14); (24190092,14); (24123073,14); (24056059,14); (23989048,14); (23922042,14);
(23855040,14); (23788042,14); (23721048,14); (23654058,14); (23587073,14); (23520091,14); (23453114,14); (23386140,14);
(23319171,14); (23252206,14); (23185246,14); (23118289,14); (23051336,14); (22984388,14); (22917444,14); (22850503,14);
(22783567,14); (22716636,14); (22649708,14); (22582784,14); (22515865,14); (22448949,14); (22382038,14); (22315131,14);
(22248228,14); (22181329,14); (22114434,14); (22047543,14); (21980657,14); (21913775,14); (21846896,14); (21780022,14);
(21713152,14); (21646286,14); (21579424,14); (21512567,14); (21445713,14); (21378864,14); (21312018,14); (21245177,14);
(21178340,14); (21111507,14); (21044678,14); (20977854,14); (20911033,14); (20844217,14); (20777404,14); (20710596,14);
(20643792,14); (20576992,14); (20510196,14); (20443404,14); (20376617,14); (20309833,14); (20243054,14); (20176278,14);
(20109507,14); (20042740,14); (19975977,14); (19909218,14); (19842464,14); (19775713,14); (19708967,14); (19642224,14);
(19575486,14); (19508752,14); (19442022,14); (19375296,14); (19308574,14); (19241856,14); (19175142,14); (19108433,14);
(19041727,14); (18975026,14); (18908329,14); (18841636,14); (18774947,14); (18708262,14); (18641581,14); (18574904,14);
(18508232,14); (18441563,14); (18374899,14); (18308239,14); (18241583,14); (18174931,14); (18108283,14); (18041639,14);
(17974999,14); (17908363,14); (17841732,14); (17775104,14); (17708481,14); (17641862,14); (17575247,14); (17508636,14);
(17442029,14); (17375426,14); (17308827,14); (17242232,14); (17175642,14); (17109055,14); (17042473,14); (16975895,14);
(16909321,14); (16842750,14); (16776185,14); (16709623,14); (16643065,14); (16576511,14); (16509962,14); (16443416,14);
(16376875,14); (16310337,14); (16243804,14); (16177275,14); (16110750,14); (16044229,14); (15977712,14); (15911199,14);
(15844690,14); (15778186,14); (15711685,14); (15645189,14); (15578697,14); (15512208,14); (15445724,14); (15379244,14);
(15312768,14); (15246296,14); (15179828,14); (15113365,14); (15046905,14); (14980449,14); (14913998,14); (14847551,14);
(14781107,14); (14714668,14); (14648233,14); (14581802,14); (14515375,14); (14448952,14); (14382533,14); (14316118,14);
(14249708,14); (14183301,14); (14116899,14); (14050500,14); (13984106,14); (13917716,14); (13851329,14); (13784947,14);
(13718569,14); (13652195,14); (13585825,14); (13519460,14); (13453098,14); (13386740,14); (13320387,14); (13254037,14);
(13187692,14); (13121350,14); (13055013,14); (12988680,14); (12922351,14); (12856026,14); (12789705,14); (12723388,14);
(12657075,14); (12590766,14); (12524462,14); (12458161,14); (12391864,14); (12325572,14); (12259283,14); (12192999,14);
(12126719,14); (12060443,14); (11994171,14); (11927902,14); (11861638,14); (11795378,14); (11729123,14); (11662871,14);
(11596623,14); (11530379,14); (11464140,14); (11397904,14); (11331673,14); (11265445,14); (11199222,14); (11133003,14);
(11066787,14); (11000576,14); (10934369,14); (10868166,14); (10801967,14); (10735772,14); (10669581,14); (10603394,14);
(10537212,14); (10471033,14); (10404858,14); (10338688,14); (10272521,14); (10206359,14); (10140200,14); (10074046,14);
(10007896,14); (9941750,14); (9875607,14); (9809469,14); (9743335,14); (9677205,14); (9611079,14); (9544957,14);
(9478840,14); (9412726,14); (9346616,14); (9280510,14); (9214409,14); (9148311,14); (9082218,14); (9016128,14);
(8950043,14); (8883961,14); (8817884,14); (8751811,14); (8685741,14); (8619676,14); (8553615,14); (8487558,14);
(8421505,14); (8355456,14); (8289411,14); (8223370,14); (8157333,14); (8091301,14); (8025272,14); (7959247,14);
(7893226,14); (7827210,14); (7761197,14); (7695189,14); (7629184,14); (7563184,14); (7497187,14); (7431195,14);
(7365207,14); (7299222,14); (7233242,14); (7167266,14); (7101294,14); (7035326,14); (6969361,14); (6903401,14);
(6837445,14); (6771493,14); (6705545,14); (6639602,14); (6573662,14); (6507726,14); (6441794,14); (6375866,14);
(6309943,14); (6244023,14); (6178107,14); (6112196,14); (6046288,14); (5980385,14); (5914485,14); (5848590,14);
(5782698,14); (5716811,14); (5650927,14); (5585048,14); (5519173,14); (5453301,14); (5387434,14); (5321571,14);
(5255712,14); (5189857,14); (5124006,14); (5058158,14); (4992315,14); (4926476,14); (4860641,14); (4794810,14);
(4728983,14); (4663160,14); (4597341,14); (4531527,14); (4465716,14); (4399909,14); (4334106,14); (4268307,14);
(4202513,14); (4136722,14); (4070935,14); (4005152,14); (3939374,14); (3873599,14); (3807828,14); (3742062,14);
(3676299,14); (3610541,14); (3544786,14); (3479036,14); (3413289,14); (3347547,14); (3281808,14); (3216074,14);
(3150343,14); (3084617,14); (3018894,14); (2953176,14); (2887462,14); (2821751,14); (2756045,14); (2690343,14);
(2624644,14); (2558950,14); (2493260,14); (2427574,14); (2361891,14); (2296213,14); (2230539,14); (2164869,14);
(2099203,14); (2033540,14); (1967882,14); (1902228,14); (1836578,14); (1770932,14); (1705290,14); (1639651,14);
(1574017,14); (1508387,14); (1442761,14); (1377139,14); (1311521,14); (1245907,14); (1180297,14); (1114691,14);
(1049089,14); (983491,14); (917897,14); (852307,14); (786721,14); (721139,14); (655561,14); (589987,14);
(524417,14); (458851,14); (393289,14); (327731,14); (262177,14); (196627,14); (131081,14); (65539,14)].
